(** * C09, C10: faces of the reference elements and their normals *)
From Coq Require Import List Arith Bool Reals Lra Lia.
From Verif Require Import Py PyToolsModel RSum ModelNd ModelShapes ModelSpaces ModelNodes ModelFaces SpecGeometry SpecFaces ProofFaces ProofFaces2.
Import ListNotations.
Local Open Scope R_scope.

(** The shapes that have a face table. *)
Definition has_faces (s : shape) : Prop :=
  (exists d, s = Simplex d /\ (1 <= d <= 3)%nat) \/ (exists d, mk_Hypercube d = Ok s /\ (1 <= d <= 3)%nat).
(** The point (1-t) p + t q. *)
Definition between (t : R) (p q : list R) : list R := map (fun '(a, b) => (1 - t) * a + t * b) (combine p q).

Definition face_affine (f : face) : Prop :=
  forall p q t, length p = shape_dim (face_shape f) -> length q = shape_dim (face_shape f) ->
    exists x y, map_to_volume f p = Ok x /\ map_to_volume f q = Ok y /\ length x = shape_dim (volume_shape f) /\ length y = shape_dim (volume_shape f)
      /\ map_to_volume f (between t p q) = Ok (between t x y).
Definition face_injective (f : face) : Prop :=
  forall p q, length p = shape_dim (face_shape f) -> length q = shape_dim (face_shape f) -> map_to_volume f p = map_to_volume f q -> p = q.
Definition face_vertices_ok (f : face) : Prop :=
  exists vs fvs, unit_vertices_for_shape (volume_shape f) = Ok vs /\ unit_vertices_for_shape (face_shape f) = Ok fvs
    /\ length (volume_vertex_indices f) = length (pts_cols fvs)
    /\ forall j, (j < length (pts_cols fvs))%nat ->
         (nth j (volume_vertex_indices f) 0 < length (pts_cols vs))%nat
         /\ map_to_volume f (nth j (pts_cols fvs) []) = Ok (nth (nth j (volume_vertex_indices f) 0%nat) (pts_cols vs) []).
Definition face_into_boundary (f : face) : Prop :=
  forall p, in_shape (face_shape f) p -> exists x, map_to_volume f p = Ok x /\ boundary (in_shape (volume_shape f)) x.
Definition face_ok (s : shape) (k : nat) (f : face) : Prop :=
  volume_shape f = s /\ face_index f = k /\ (shape_dim (face_shape f) + 1 = shape_dim s)%nat
  /\ face_affine f /\ face_injective f /\ face_vertices_ok f /\ face_into_boundary f.

(** ** Proof by going through the faces *)
Ltac eval_map := unfold simplex_face_to_vol_map, hypercube_face_to_vol_map, affine_image; cbn.
Ltac lists_eq := repeat match goal with
  | |- Ok _ = Ok _ => apply f_equal
  | |- _ :: _ = _ :: _ => apply (f_equal2 cons)
  | |- [] = [] => reflexivity end.
Ltac split_len L := match type of L with
  | length ?x = 0%nat => apply len0 in L; subst x
  | length ?x = 1%nat => apply len1 in L; destruct L as (?a & ->)
  | length ?x = 2%nat => apply len2 in L; destruct L as (?a & ?b & ->) end.
Ltac lt_cases j H := cbn in H; repeat (destruct j as [|j]; [|try lia]); try lia.
Ltac do_affine := intros p q t Lp Lq; cbn [face_shape volume_shape shape_dim map_to_volume] in *; cbn in Lp, Lq; split_len Lp; split_len Lq;
  eexists; eexists; split; [eval_map; reflexivity|]; split; [eval_map; reflexivity|]; split; [reflexivity|]; split; [reflexivity|]; eval_map; lists_eq; field.
Ltac do_inj := intros p q Lp Lq; cbn [face_shape volume_shape shape_dim map_to_volume] in *; cbn in Lp, Lq; split_len Lp; split_len Lq;
  eval_map; intros E; try reflexivity; injection E; intros; lists_eq; lra.
Lemma vol_simplex d : unit_vertices_for_shape (Simplex d) = Ok (unit_vertices_for_simplex d).
Proof. reflexivity. Qed.
Ltac do_vertices := eexists; eexists; cbn [face_shape volume_shape volume_vertex_indices map_to_volume];
  split; [first [apply vol_simplex|apply cube2_vertices|apply cube3_vertices]|]; split; [first [apply vol_simplex|apply cube2_vertices|apply cube3_vertices]|];
  split; [reflexivity|]; let j := fresh "j" in let H := fresh "H" in intros j H; lt_cases j H; (split; [cbn; lia|]); eval_map; lists_eq; field.
Ltac do_into := intros p Hp; cbn [face_shape volume_shape map_to_volume] in *;
  first [apply in_point in Hp; subst p | apply in_segment in Hp; destruct Hp as (a & -> & Hp) | apply in_triangle in Hp; destruct Hp as (a & b & -> & Hp) | apply in_square in Hp; destruct Hp as (a & b & -> & Hp)];
  eexists; (split; [eval_map; reflexivity|]);
  first [apply bd_segment | apply bd_triangle | apply bd_tet | apply bd_square | apply bd_cube3];
  repeat eexists; lra.
Ltac do_face := split; [reflexivity|]; split; [reflexivity|]; split; [reflexivity|]; split; [do_affine|]; split; [do_inj|]; split; [do_vertices|do_into].

Lemma segment_faces : forall k f, nth_error simplex1_faces k = Some f -> face_ok (Simplex 1) k f.
Proof. intros k f H. do 2 (destruct k as [|k]; [cbn in H; injection H as <-; do_face|]). destruct k; discriminate. Qed.
Lemma triangle_faces : forall k f, nth_error simplex2_faces k = Some f -> face_ok (Simplex 2) k f.
Proof. intros k f H. do 3 (destruct k as [|k]; [cbn in H; injection H as <-; do_face|]). destruct k; discriminate. Qed.
Lemma tet_faces : forall k f, nth_error simplex3_faces k = Some f -> face_ok (Simplex 3) k f.
Proof. intros k f H. do 4 (destruct k as [|k]; [cbn in H; injection H as <-; do_face|]). destruct k; discriminate. Qed.
Lemma square_faces : forall k f, nth_error cube2_faces k = Some f -> face_ok (cube 2) k f.
Proof. intros k f H. do 4 (destruct k as [|k]; [cbn in H; injection H as <-; do_face|]). destruct k; discriminate. Qed.
Lemma cube_faces : forall k f, nth_error cube3_faces k = Some f -> face_ok (cube 3) k f.
Proof. intros k f H. do 6 (destruct k as [|k]; [cbn in H; injection H as <-; do_face|]). destruct k; discriminate. Qed.

(** ** Covering *)
Ltac cover k p := exists k; eexists; exists p; split; [reflexivity|]; cbn [face_shape map_to_volume];
  split; [first [apply in_point; reflexivity | apply in_segment; eexists; split; [reflexivity|lra] | apply in_triangle; repeat eexists; lra | apply in_square; repeat eexists; lra] | eval_map; lists_eq; try (subst; field); lra].
Definition covered (s : shape) (fs : list face) : Prop :=
  forall x, boundary (in_shape s) x -> exists k f p, nth_error fs k = Some f /\ in_shape (face_shape f) p /\ map_to_volume f p = Ok x.
Lemma segment_cover : covered (Simplex 1) simplex1_faces.
Proof. intros x H. apply bd_segment in H. destruct H as (a & -> & [-> | ->]); [cover 0%nat (@nil R)|cover 1%nat (@nil R)]. Qed.
Lemma triangle_cover : covered (Simplex 2) simplex2_faces.
Proof. intros x H. apply bd_triangle in H. destruct H as (a & b & -> & H & [E|[E|E]]); [cover 1%nat [- b]|cover 0%nat [a]|cover 2%nat [b]]. Qed.
Lemma tet_cover : covered (Simplex 3) simplex3_faces.
Proof. intros x H. apply bd_tet in H. destruct H as (a & b & c & -> & H & [E|[E|[E|E]]]); [cover 2%nat [c; b]|cover 1%nat [a; c]|cover 0%nat [b; a]|cover 3%nat [b; c]]. Qed.
Lemma square_cover : covered (cube 2) cube2_faces.
Proof. intros x H. apply bd_square in H. destruct H as (a & b & -> & H & [E|[E|[E|E]]]); [cover 2%nat [- b]|cover 3%nat [b]|cover 0%nat [a]|cover 1%nat [- a]]. Qed.
Lemma cube_cover : covered (cube 3) cube3_faces.
Proof.
  intros x H. apply bd_cube3 in H. destruct H as (a & b & c & -> & H & [E|[E|[E|[E|[E|E]]]]]);
    [cover 2%nat [c; b]|cover 3%nat [b; c]|cover 4%nat [a; c]|cover 5%nat [c; a]|cover 0%nat [b; a]|cover 1%nat [a; b]].
Qed.
(** Different faces meet only in boundary points of the faces. *)
Definition meet_in_boundary (fs : list face) : Prop :=
  forall k l f g p q, nth_error fs k = Some f -> nth_error fs l = Some g -> k <> l ->
    in_shape (face_shape f) p -> in_shape (face_shape g) q -> map_to_volume f p = map_to_volume g q -> boundary (in_shape (face_shape f)) p.
Ltac face_points H p := first [apply in_point in H; subst p | apply in_segment in H; destruct H as (?a & -> & H) | apply in_triangle in H; destruct H as (?a & ?b & -> & H) | apply in_square in H; destruct H as (?a & ?b & -> & H)].
Ltac meet := match goal with Hf : Some _ = Some ?f, Hg : Some _ = Some ?g, Hp : in_shape _ ?p, Hq : in_shape _ ?q |- _ =>
  injection Hf as <-; injection Hg as <-; cbn [face_shape map_to_volume] in *; face_points Hp p; face_points Hq q;
  eval_map; let E := fresh in intros E; injection E; intros; first [exfalso; lra | apply bd_segment; eexists; split; [reflexivity|lra] | apply bd_triangle; repeat eexists; lra | apply bd_square; repeat eexists; lra] end.
Lemma segment_meet : meet_in_boundary simplex1_faces.
Proof. intros k l f g p q Hf Hg N Hp Hq. do 2 (destruct k as [|k]; [do 2 (destruct l as [|l]; [try lia; cbn in Hf, Hg; meet|]); destruct l; discriminate|]). destruct k; discriminate. Qed.
Lemma triangle_meet : meet_in_boundary simplex2_faces.
Proof. intros k l f g p q Hf Hg N Hp Hq. do 3 (destruct k as [|k]; [do 3 (destruct l as [|l]; [try lia; cbn in Hf, Hg; meet|]); destruct l; discriminate|]). destruct k; discriminate. Qed.
Lemma tet_meet : meet_in_boundary simplex3_faces.
Proof. intros k l f g p q Hf Hg N Hp Hq. do 4 (destruct k as [|k]; [do 4 (destruct l as [|l]; [try lia; cbn in Hf, Hg; meet|]); destruct l; discriminate|]). destruct k; discriminate. Qed.
Lemma square_meet : meet_in_boundary cube2_faces.
Proof. intros k l f g p q Hf Hg N Hp Hq. do 4 (destruct k as [|k]; [do 4 (destruct l as [|l]; [try lia; cbn in Hf, Hg; meet|]); destruct l; discriminate|]). destruct k; discriminate. Qed.
Lemma cube_meet : meet_in_boundary cube3_faces.
Proof. intros k l f g p q Hf Hg N Hp Hq. do 6 (destruct k as [|k]; [do 6 (destruct l as [|l]; [try lia; cbn in Hf, Hg; meet|]); destruct l; discriminate|]). destruct k; discriminate. Qed.

(** ** C09 *)
Lemma has_faces_cases s : has_faces s -> s = Simplex 1 \/ s = Simplex 2 \/ s = Simplex 3 \/ s = cube 2 \/ s = cube 3.
Proof.
  intros [(d & -> & H)|(d & E & H)].
  - assert (d = 1 \/ d = 2 \/ d = 3)%nat as [-> | [-> | ->]] by lia; tauto.
  - assert (d = 1 \/ d = 2 \/ d = 3)%nat as [-> | [-> | ->]] by lia.
    + cbn in E. left. congruence.
    + rewrite cube_is in E by lia. right; right; right; left. congruence.
    + rewrite cube_is in E by lia. right; right; right; right. congruence.
Qed.
Theorem C09_faces : forall s, has_faces s -> exists faces, faces_for_shape s = Ok faces
  /\ nfaces s = Ok (length faces)
  /\ (forall k f, nth_error faces k = Some f -> face_ok s k f)
  /\ covered s faces /\ meet_in_boundary faces.
Proof.
  intros s H. destruct (has_faces_cases s H) as [-> | [-> | [-> | [-> | ->]]]].
  - exists simplex1_faces. split; [apply simplex1_faces_ok|]. split; [reflexivity|]. split; [apply segment_faces|]. split; [apply segment_cover|apply segment_meet].
  - exists simplex2_faces. split; [apply simplex2_faces_ok|]. split; [reflexivity|]. split; [apply triangle_faces|]. split; [apply triangle_cover|apply triangle_meet].
  - exists simplex3_faces. split; [apply simplex3_faces_ok|]. split; [reflexivity|]. split; [apply tet_faces|]. split; [apply tet_cover|apply tet_meet].
  - exists cube2_faces. split; [apply cube2_faces_ok|]. split; [reflexivity|]. split; [apply square_faces|]. split; [apply square_cover|apply square_meet].
  - exists cube3_faces. split; [apply cube3_faces_ok|]. split; [reflexivity|]. split; [apply cube_faces|]. split; [apply cube_cover|apply cube_meet].
Qed.
(** All other shapes are refused. *)
Theorem C09_refused : (forall d, (d = 0 \/ 4 <= d)%nat -> faces_for_shape (Simplex d) = Err KeyError)
  /\ (forall d s, (d = 0 \/ 4 <= d)%nat -> mk_Hypercube d = Ok s -> faces_for_shape s = Err KeyError)
  /\ (forall d bs, faces_for_shape (TPShape CTensorProduct d bs) = Err NotImplementedE).
Proof.
  split; [|split].
  - intros d [-> | H]; [reflexivity|]. do 4 (destruct d as [|d]; [lia|]). reflexivity.
  - intros d s H E. rewrite cube_is in E by lia. assert (s = cube d) as -> by congruence. destruct H as [-> | H]; [reflexivity|]. do 4 (destruct d as [|d]; [lia|]). reflexivity.
  - reflexivity.
Qed.
Example C09_example_shapes : has_faces (Simplex 3) /\ has_faces (cube 3) /\ exists x, boundary (in_shape (cube 3)) x.
Proof.
  split; [left; exists 3%nat; split; [easy|lia]|]. split; [right; exists 3%nat; split; [now apply cube_is|lia]|].
  exists [1; 0; 0]. apply bd_cube3. repeat eexists; lra.
Qed.

(** ** C10 *)
(** The duals pymbolic computes, in coordinates. *)
Lemma vector2 a b : forall bits, (bits < 4)%nat -> mv_vector [a; b] bits = nth bits [0; a; b; 0] 0.
Proof. intros bits H. do 4 (destruct bits as [|bits]; [unfold mv_vector; cbn; ring|]). lia. Qed.
Lemma dual2 a b (A : multivector) : (forall bits, (bits < 4)%nat -> A bits = nth bits [0; a; b; 0] 0) -> mv_as_vector 2 (mv_dual 2 A) = [b; - a].
Proof.
  intros H. unfold mv_as_vector, mv_dual, mv_inner, mv_product, mv_rev, reorder_sign. cbn. rewrite !H by lia. cbn. lists_eq; ring.
Qed.
Lemma norm2 a b (A : multivector) : (forall bits, (bits < 4)%nat -> A bits = nth bits [0; a; b; 0] 0) -> mv_norm_squared 2 A = a * a + b * b.
Proof. intros H. unfold mv_norm_squared. cbn. rewrite !H by lia. cbn. ring. Qed.
Lemma outer3 a b c x y z : forall bits, (bits < 8)%nat -> mv_outer 3 (mv_vector [a; b; c]) (mv_vector [x; y; z]) bits
  = nth bits [0; 0; 0; a * y - b * x; 0; a * z - c * x; b * z - c * y; 0] 0.
Proof.
  intros bits H. do 8 (destruct bits as [|bits]; [unfold mv_outer, mv_product, mv_vector, reorder_sign; cbn; ring|]). lia.
Qed.
Lemma dual3 p q r (B : multivector) : (forall bits, (bits < 8)%nat -> B bits = nth bits [0; 0; 0; p; 0; q; r; 0] 0) ->
  mv_as_vector 3 (mv_dual 3 B) = [r; - q; p].
Proof.
  intros H. unfold mv_as_vector, mv_dual, mv_inner, mv_product, mv_rev, reorder_sign. cbn. rewrite !H by lia. cbn. lists_eq; ring.
Qed.
Lemma norm3 p q r (B : multivector) : (forall bits, (bits < 8)%nat -> B bits = nth bits [0; 0; 0; p; 0; q; r; 0] 0) -> mv_norm_squared 3 B = p * p + q * q + r * r.
Proof. intros H. unfold mv_norm_squared. cbn. rewrite !H by lia. cbn. ring. Qed.
(** The length by which the normal is divided. *)
Definition scale (normalize : bool) (q : R) : R := if normalize then sqrt q else 1.
Lemma normal_2d f b cols x0 y0 x1 y1 : unit_vertices_for_shape (volume_shape f) = Ok (mkPts 2 cols) -> take_columns cols (volume_vertex_indices f) = Ok [[x0; y0]; [x1; y1]] ->
  shape_dim (face_shape f) = 1%nat ->
  let s := scale b ((x1 - x0) * (x1 - x0) + (y1 - y0) * (y1 - y0)) in
  face_normal f b = Ok [(y1 - y0) / s; - ((x1 - x0) / s)].
Proof.
  intros E1 E2 E3 s. unfold face_normal. rewrite E1. cbn [bind pts_cols pts_dim]. rewrite E2, E3. cbn [bind Nat.eqb getitem nth_error seq mapM Nat.add fold_left vsub map2 combine map]. f_equal.
  apply dual2. pose proof (vector2 (x1 - x0) (y1 - y0)) as V. intros bits Hb. subst s. destruct b; cbn [scale].
  - rewrite (norm2 _ _ _ V), (V bits Hb). do 4 (destruct bits as [|bits]; [cbn; unfold Rdiv; ring|]). lia.
  - rewrite (V bits Hb). do 4 (destruct bits as [|bits]; [cbn; field|]). lia.
Qed.
Lemma normal_3d f b cols x0 y0 z0 x1 y1 z1 x2 y2 z2 rest : unit_vertices_for_shape (volume_shape f) = Ok (mkPts 3 cols) ->
  take_columns cols (volume_vertex_indices f) = Ok ([x0; y0; z0] :: [x1; y1; z1] :: [x2; y2; z2] :: rest) -> shape_dim (face_shape f) = 2%nat ->
  let nx := (y1 - y0) * (z2 - z0) - (z1 - z0) * (y2 - y0) in
  let ny := (x1 - x0) * (z2 - z0) - (z1 - z0) * (x2 - x0) in
  let nz := (x1 - x0) * (y2 - y0) - (y1 - y0) * (x2 - x0) in
  let s := scale b (nz * nz + ny * ny + nx * nx) in
  face_normal f b = Ok [nx / s; - (ny / s); nz / s].
Proof.
  intros E1 E2 E3 nx ny nz s. unfold face_normal. rewrite E1. cbn [bind pts_cols pts_dim]. rewrite E2, E3. cbn [bind Nat.eqb getitem nth_error seq mapM Nat.add fold_left vsub map2 combine map]. f_equal.
  apply dual3. pose proof (outer3 (x1 - x0) (y1 - y0) (z1 - z0) (x2 - x0) (y2 - y0) (z2 - z0)) as V. fold nx ny nz in V. intros bits Hb. subst s. destruct b; cbn [scale].
  - rewrite (norm3 _ _ _ _ V). rewrite V by easy. do 8 (destruct bits as [|bits]; [cbn; unfold Rdiv; ring|]). lia.
  - rewrite (V bits Hb). do 8 (destruct bits as [|bits]; [cbn; field|]). lia.
Qed.
Lemma triangle_vertices : unit_vertices_for_shape (Simplex 2) = Ok (mkPts 2 [[-1;-1];[1;-1];[-1;1]]).
Proof. reflexivity. Qed.
Lemma tet_vertices : unit_vertices_for_shape (Simplex 3) = Ok (mkPts 3 [[-1;-1;-1];[1;-1;-1];[-1;1;-1];[-1;-1;1]]).
Proof. reflexivity. Qed.
(** n is orthogonal to the mapped face and points out of the element. *)
Definition outward_normal (f : face) (n : list R) : Prop :=
  let d := shape_dim (volume_shape f) in
  length n = d /\ 0 < rsum (fun i => nth i n 0 * nth i n 0) d
  /\ (forall p q x y, length p = shape_dim (face_shape f) -> length q = shape_dim (face_shape f) -> map_to_volume f p = Ok x -> map_to_volume f q = Ok y ->
        rsum (fun i => nth i n 0 * (nth i x 0 - nth i y 0)) d = 0)
  /\ (forall p x z, length p = shape_dim (face_shape f) -> map_to_volume f p = Ok x -> in_shape (volume_shape f) z ->
        rsum (fun i => nth i n 0 * (nth i z 0 - nth i x 0)) d <= 0).
Definition normals_ok (f : face) : Prop :=
  exists n m c, face_normal f true = Ok n /\ face_normal f false = Ok m
    /\ outward_normal f n /\ rsum (fun i => nth i n 0 * nth i n 0) (shape_dim (volume_shape f)) = 1
    /\ outward_normal f m /\ 0 < c /\ m = map (Rmult c) n.
Lemma outward_scale f n c : 0 < c -> outward_normal f n -> outward_normal f (map (Rmult c) n).
Proof.
  intros Hc (L & P & O & W). assert (N : forall i, nth i (map (Rmult c) n) 0 = c * nth i n 0).
  { intros i. rewrite <- (map_nth (Rmult c)). f_equal. ring. }
  split; [now rewrite map_length|]. split; [|split].
  - rewrite (rsum_ext _ (fun i => c * c * (nth i n 0 * nth i n 0))) by (intros; rewrite N; ring). rewrite rsum_scal. apply Rmult_lt_0_compat; [nra|easy].
  - intros p q x y Hp Hq E1 E2. rewrite (rsum_ext _ (fun i => c * (nth i n 0 * (nth i x 0 - nth i y 0)))) by (intros; rewrite N; ring). rewrite rsum_scal, (O p q x y) by easy. ring.
  - intros p x z Hp E1 Hz. rewrite (rsum_ext _ (fun i => c * (nth i n 0 * (nth i z 0 - nth i x 0)))) by (intros; rewrite N; ring). rewrite rsum_scal. specialize (W p x z Hp E1 Hz). set (r := rsum _ _) in *. clearbody r. nra.
Qed.
(** It suffices to find the unnormalised normal and its squared length. *)
Lemma normals_from f m q : 0 < q -> rsum (fun i => nth i m 0 * nth i m 0) (shape_dim (volume_shape f)) = q ->
  face_normal f false = Ok m -> face_normal f true = Ok (map (fun x => x / sqrt q) m) -> outward_normal f m -> normals_ok f.
Proof.
  intros Hq E H1 H2 HO. pose proof (sqrt_lt_R0 q Hq) as S. exists (map (fun x => x / sqrt q) m), m, (sqrt q). split; [easy|]. split; [easy|].
  assert (EM : map (fun x => x / sqrt q) m = map (Rmult (/ sqrt q)) m) by (apply map_ext; intros; unfold Rdiv; ring).
  split; [rewrite EM; apply outward_scale; [now apply Rinv_0_lt_compat|easy]|]. split.
  - assert (N : forall i, nth i (map (fun x => x / sqrt q) m) 0 = nth i m 0 / sqrt q). { intros i. rewrite <- (map_nth (fun x => x / sqrt q)). f_equal. unfold Rdiv. ring. }
    rewrite (rsum_ext _ (fun i => / (sqrt q * sqrt q) * (nth i m 0 * nth i m 0))) by (intros; rewrite N; unfold Rdiv; rewrite Rinv_mult_distr by lra; ring). rewrite rsum_scal, E, sqrt_sqrt by lra. field. lra.
  - split; [easy|]. split; [easy|]. rewrite map_map. rewrite <- (map_id m) at 1. apply map_ext. intros. field. lra.
Qed.
Ltac face_len L := cbn in L; split_len L.
Ltac vol_points H z := first [apply in_segment in H; destruct H as (?u & -> & H) | apply in_triangle in H; destruct H as (?u & ?v & -> & H) | apply in_tet in H; destruct H as (?u & ?v & ?w & -> & H)
  | apply in_square in H; destruct H as (?u & ?v & -> & H) | apply in_cube3 in H; destruct H as (?u & ?v & ?w & -> & H)].
Ltac do_outward := split; [reflexivity|]; split; [cbn; lra|]; split;
  [ intros p q x y Lp Lq; cbn [face_shape volume_shape map_to_volume] in *; face_len Lp; face_len Lq; eval_map; intros E1 E2;
    match type of E1 with Ok ?v = _ => assert (x = v) as -> by congruence end; match type of E2 with Ok ?v = _ => assert (y = v) as -> by congruence end; cbn; field
  | intros p x z Lp; cbn [face_shape volume_shape map_to_volume] in *; face_len Lp; eval_map; intros E1 Hz;
    match type of E1 with Ok ?v = _ => assert (x = v) as -> by congruence end; vol_points Hz z; cbn; lra ].
Ltac lists_field := lists_eq; try (unfold Rdiv; ring).

Lemma sign_p x : 0 < x -> np_sign x = 1.
Proof. intros H. unfold np_sign. destruct (Rlt_dec 0 x); [easy|lra]. Qed.
Lemma sign_m x : x < 0 -> np_sign x = - (1).
Proof. intros H. unfold np_sign. destruct (Rlt_dec 0 x); [lra|]. destruct (Rlt_dec x 0); [easy|lra]. Qed.
Lemma segment_normals : forall k f, nth_error simplex1_faces k = Some f -> normals_ok f.
Proof.
  intros k f H. destruct k as [|[|k]]; [cbn in H; injection H as <-|cbn in H; injection H as <-|destruct k; discriminate].
  - assert (E : forall b, face_normal (mkFace (Simplex 0) (Simplex 1) 0 [0%nat] (simplex_face_to_vol_map 1 [[-1]])) b = Ok [- (1)]).
    { intros b. unfold face_normal. cbn. rewrite sign_m by lra. reflexivity. }
    apply (normals_from _ [- (1)] 1); [lra|cbn; lra|apply E|rewrite E, sqrt_1; cbn; f_equal; f_equal; field|do_outward].
  - assert (E : forall b, face_normal (mkFace (Simplex 0) (Simplex 1) 1 [1%nat] (simplex_face_to_vol_map 1 [[1]])) b = Ok [1]).
    { intros b. unfold face_normal. cbn. rewrite sign_p by lra. reflexivity. }
    apply (normals_from _ [1] 1); [lra|cbn; lra|apply E|rewrite E, sqrt_1; cbn; f_equal; f_equal; field|do_outward].
Qed.
Ltac normal2 cols vs :=
  match goal with |- normals_ok ?f =>
    let E := fresh "E" in
    pose proof (fun b => normal_2d f b cols _ _ _ _ vs eq_refl eq_refl) as E; cbv zeta in E;
    match type of E with forall b, _ = Ok [(?dy) / _; - ((?dx) / _)] =>
      apply (normals_from f [dy; - dx] (dx * dx + dy * dy));
      [lra | cbn; ring | rewrite (E false); cbn [scale]; lists_eq; field | rewrite (E true); cbn [scale map]; lists_eq; unfold Rdiv; ring | do_outward]
    end end.
Lemma triangle_normals : forall k f, nth_error simplex2_faces k = Some f -> normals_ok f.
Proof.
  intros k f H. do 3 (destruct k as [|k]; [cbn in H; injection H as <-; normal2 [[-1;-1];[1;-1];[-1;1]] triangle_vertices|]). destruct k; discriminate.
Qed.
Lemma square_normals : forall k f, nth_error cube2_faces k = Some f -> normals_ok f.
Proof.
  intros k f H. do 4 (destruct k as [|k]; [cbn in H; injection H as <-; normal2 [[-1;-1];[1;-1];[-1;1];[1;1]] cube2_vertices|]). destruct k; discriminate.
Qed.
Ltac normal3 cols vs :=
  match goal with |- normals_ok ?f =>
    let E := fresh "E" in
    pose proof (fun b => normal_3d f b cols _ _ _ _ _ _ _ _ _ _ vs eq_refl eq_refl) as E; cbv zeta in E;
    match type of E with forall b, _ = Ok [(?nx) / _; - ((?ny) / _); (?nz) / _] =>
      apply (normals_from f [nx; - ny; nz] (nz * nz + ny * ny + nx * nx));
      [lra | cbn; ring | rewrite (E false); cbn [scale]; lists_eq; field | rewrite (E true); cbn [scale map]; lists_eq; unfold Rdiv; ring | do_outward]
    end end.
Lemma tet_normals : forall k f, nth_error simplex3_faces k = Some f -> normals_ok f.
Proof.
  intros k f H. do 4 (destruct k as [|k]; [cbn in H; injection H as <-; normal3 [[-1;-1;-1];[1;-1;-1];[-1;1;-1];[-1;-1;1]] tet_vertices|]). destruct k; discriminate.
Qed.
Lemma cube_normals : forall k f, nth_error cube3_faces k = Some f -> normals_ok f.
Proof.
  intros k f H. do 6 (destruct k as [|k]; [cbn in H; injection H as <-; normal3 [[-1;-1;-1];[1;-1;-1];[-1;1;-1];[1;1;-1];[-1;-1;1];[1;-1;1];[-1;1;1];[1;1;1]] cube3_vertices|]). destruct k; discriminate.
Qed.
Theorem C10_normals : forall s faces k f, has_faces s -> faces_for_shape s = Ok faces -> nth_error faces k = Some f -> normals_ok f.
Proof.
  intros s faces k f H E HF. destruct (has_faces_cases s H) as [-> | [-> | [-> | [-> | ->]]]].
  - rewrite simplex1_faces_ok in E. assert (faces = simplex1_faces) as -> by congruence. eapply segment_normals; eauto.
  - rewrite simplex2_faces_ok in E. assert (faces = simplex2_faces) as -> by congruence. eapply triangle_normals; eauto.
  - rewrite simplex3_faces_ok in E. assert (faces = simplex3_faces) as -> by congruence. eapply tet_normals; eauto.
  - rewrite cube2_faces_ok in E. assert (faces = cube2_faces) as -> by congruence. eapply square_normals; eauto.
  - rewrite cube3_faces_ok in E. assert (faces = cube3_faces) as -> by congruence. eapply cube_normals; eauto.
Qed.
(** A triangle: the normal of the slanted side is (1, 1)/sqrt 2. *)
Example C10_example : exists f, nth_error simplex2_faces 2 = Some f /\ face_normal f true = Ok [1 / sqrt 2; 1 / sqrt 2].
Proof.
  eexists. split; [reflexivity|]. match goal with |- face_normal ?f _ = _ => rewrite (normal_2d f true _ _ _ _ _ triangle_vertices eq_refl eq_refl) end. cbn [scale].
  replace ((-1 - 1) * (-1 - 1) + (1 - -1) * (1 - -1)) with (2 * 2 * 2) by ring. rewrite sqrt_mult, sqrt_square by lra. pose proof (sqrt_lt_R0 2 ltac:(lra)). lists_eq; field; lra.
Qed.
Print Assumptions C09_faces.
Print Assumptions C09_refused.
Print Assumptions C10_normals.
