(** * Warp-and-blend nodes in barycentric coordinates *)
From Coq Require Import List Arith Bool ZArith Reals Lra Lia.
From Verif Require Import Py RSum PyToolsModel ModelNd ModelShapes ModelSpaces ModelNodes ModelModes ModelBasis ModelQuad ModelGauss ModelMatrices ModelTools ModelWarpBlend.
From Verif Require Import SpecGeometry ProofWarpBlend PropsTools.
From Verif Require ModelFaces ModelGM.
Import ListNotations.
Local Open Scope R_scope.

Lemma combine_maps {X A B} (f : X -> A) (g : X -> B) l : combine (map f l) (map g l) = map (fun x => (f x, g x)) l.
Proof. induction l as [|x l IH]; [reflexivity|]. cbn [map combine]. now rewrite IH. Qed.
Lemma map2_maps {X} h (f g : X -> R) l : ModelFaces.map2 h (map f l) (map g l) = map (fun x => h (f x) (g x)) l.
Proof. unfold ModelFaces.map2. rewrite combine_maps, map_map. reflexivity. Qed.
Lemma add_along_maps {X} (f : X -> list R) t (a : X -> R) l :
  add_along (map f l) t (map a l) = map (fun x => ModelFaces.vadd (f x) (vscale (a x) t)) l.
Proof. unfold add_along. rewrite combine_maps, map_map. reflexivity. Qed.

(** The scaled warp as a function *)
Section Moves.
  Context (F : R -> R) (al : R).
  (** how far node coordinate [bi] is pushed along the edge from vertex j to vertex i, [bk] being the third coordinate *)
  Definition push (bi bj bk : R) : R := 2 * bi * bj * F (bi - bj) * (1 + (al * bk) ^ 2).
  Definition disp2 (b : list R) : list R :=
    let b0 := nth 0 b 0 in let b1 := nth 1 b 0 in let b2 := nth 2 b 0 in
    [push b0 b1 b2 + push b0 b2 b1; push b1 b0 b2 + push b1 b2 b0; push b2 b0 b1 + push b2 b1 b0].
  Definition move2 (b : list R) : list R := ModelFaces.vadd b (disp2 b).
  Definition eq2 (d : list R) : list R :=
    [- nth 0 d 0 + nth 1 d 0; (- nth 0 d 0 - nth 1 d 0 + 2 * nth 2 d 0) / sqrt 3].

  Hypothesis Fodd : forall x, F (- x) = - F x.
  Lemma push_anti bi bj bk : push bj bi bk = - push bi bj bk.
  Proof. unfold push. replace (bj - bi) with (- (bi - bj)) by ring. rewrite Fodd. ring. Qed.
  Lemma disp2_sum b : nth 0 (disp2 b) 0 + nth 1 (disp2 b) 0 + nth 2 (disp2 b) 0 = 0.
  Proof.
    cbn [disp2 nth]. rewrite (push_anti (nth 0 b 0) (nth 1 b 0)), (push_anti (nth 0 b 0) (nth 2 b 0)), (push_anti (nth 1 b 0) (nth 2 b 0)). ring.
  Qed.
End Moves.

Lemma s3_pos : 0 < sqrt 3. Proof. apply sqrt_lt_R0. lra. Qed.
Lemma s6_pos : 0 < sqrt 6. Proof. apply sqrt_lt_R0. lra. Qed.
Lemma s3_sq : sqrt 3 * sqrt 3 = 3. Proof. apply sqrt_sqrt. lra. Qed.
Lemma s6_sq : sqrt 6 * sqrt 6 = 6. Proof. apply sqrt_sqrt. lra. Qed.
Lemma inv_s3 k : k / sqrt 3 = k * (sqrt 3 / 3).
Proof. pose proof s3_pos. transitivity (k / sqrt 3 * (sqrt 3 * sqrt 3 / 3)); [rewrite s3_sq; field; lra|field; lra]. Qed.
Lemma inv_s6 k : k / sqrt 6 = k * (sqrt 6 / 6).
Proof. pose proof s6_pos. transitivity (k / sqrt 6 * (sqrt 6 * sqrt 6 / 6)); [rewrite s6_sq; field; lra|field; lra]. Qed.
Lemma div_s3 x y : x / sqrt 3 * (y / sqrt 3) = x * y / 3.
Proof. pose proof s3_pos. transitivity (x * y / (sqrt 3 * sqrt 3)); [field; lra|now rewrite s3_sq]. Qed.
Lemma div_s3k k x y : k * (x / sqrt 3) * (y / sqrt 3) = k * (x * y / 3).
Proof. rewrite <- div_s3. ring. Qed.
Lemma norm2_is v r : 0 <= r -> sumR (map (fun t => t * t) v) = r * r -> norm2 v = r.
Proof. intros H E. unfold norm2. rewrite E. now apply sqrt_square. Qed.

Definition tangent2 (i1 : nat) : list R :=
  match i1 with 0%nat => [1 / 2; - (sqrt 3 / 2)] | 1%nat => [- (1 / 2); - (sqrt 3 / 2)] | _ => [-1; 0] end.
Lemma tangent2_ok i1 vs : (i1 < 3)%nat -> equilateral_vertices 2 = Ok vs ->
  normalise (ModelFaces.vsub (nth (fst (other_two i1)) vs []) (nth (snd (other_two i1)) vs [])) = tangent2 i1.
Proof.
  intros H E. cbn [equilateral_vertices] in E. injection E as <-. pose proof s3_sq as S. pose proof s3_pos as P.
  assert (i1 = 0 \/ i1 = 1 \/ i1 = 2)%nat as [-> | [-> | ->]] by lia; cbn [other_two fst snd nth];
    unfold normalise, ModelFaces.vsub, ModelFaces.map2; cbn [combine map]; rewrite !inv_s3;
    (rewrite (norm2_is _ 2) by (try lra; unfold sumR; cbn [map fold_right]; nra)); cbn [map tangent2]; repeat f_equal; lra.
Qed.

Section Shift2.
  Context (eigh : eigh_t) (rj : roots_t) (n : nat) (F : R -> R).
  Hypothesis HF : forall outs, warp_factor eigh rj n outs true = Ok (map F outs).
  Hypothesis Fodd : forall x, F (- x) = - F x.

  Lemma shift2_step_maps al bary (f : list R -> list R) i1 : (i1 < 3)%nat ->
    shift2_step eigh rj n bary al (map f bary) i1
    = Ok (map (fun b => ModelFaces.vadd (f b) (vscale (2 * push F al (nth (fst (other_two i1)) b 0) (nth (snd (other_two i1)) b 0) (nth i1 b 0)) (tangent2 i1))) bary).
  Proof.
    intros H. unfold shift2_step. destruct (other_two i1) as [i2 i3] eqn:EO. rewrite HF. cbn [bind].
    destruct (equilateral_vertices 2) as [vs|] eqn:EV; [|discriminate]. cbn [bind].
    pose proof (tangent2_ok i1 vs H EV) as T. rewrite EO in T. cbn [fst snd] in *. rewrite T.
    rewrite map_map, !map2_maps, add_along_maps. apply f_equal. apply map_ext. intros b. do 2 f_equal. unfold push. ring.
  Qed.
  Lemma shift2_run al bary : equilateral_shift_2d eigh rj n bary al = Ok (map (fun b => eq2 (disp2 F al b)) bary).
  Proof.
    unfold equilateral_shift_2d. cbn [seq ModelGM.foldM].
    rewrite (shift2_step_maps al bary (fun _ => [0; 0])) by lia. cbn [bind].
    rewrite shift2_step_maps by lia. cbn [bind]. rewrite shift2_step_maps by lia. cbn [bind]. apply f_equal. apply map_ext. intros b.
    cbn [other_two fst snd tangent2 vscale map ModelFaces.vadd]. unfold ModelFaces.vadd, ModelFaces.map2. cbn [combine map].
    unfold eq2, disp2. cbn [nth].
    rewrite (push_anti F al Fodd (nth 0 b 0) (nth 1 b 0)), (push_anti F al Fodd (nth 0 b 0) (nth 2 b 0)), (push_anti F al Fodd (nth 1 b 0) (nth 2 b 0)).
    rewrite inv_s3. f_equal; [|f_equal]; field.
  Qed.
End Shift2.

(** ** Nodes from their barycentric coordinates *)
Definition tuple_bary (n : nat) (t : list nat) : list R := unit_to_barycentric (map (fun k => INR k / INR n * 2 - 1) t).
Definition unit_of (b : list R) : list R := map (fun c => 2 * c - 1) (tl b).

Lemma mapM_ok {X Y} (f : X -> res Y) (g : X -> Y) l : (forall x, In x l -> f x = Ok (g x)) -> mapM f l = Ok (map g l).
Proof.
  induction l as [|x l IH]; intros H; [reflexivity|]. cbn [mapM map]. rewrite (H x (or_introl eq_refl)). cbn [bind].
  rewrite IH by (intros; apply H; now right). reflexivity.
Qed.
Lemma mapM_map {X Y Z} (f : Y -> res Z) (g : X -> Y) l : mapM f (map g l) = mapM (fun x => f (g x)) l.
Proof. induction l as [|x l IH]; [reflexivity|]. cbn [map mapM]. now rewrite IH. Qed.
Lemma b2u_unit_of d b : length b = S d -> list_sum b = 1 -> barycentric_to_unit b = Ok (unit_of b).
Proof.
  intros L H. rewrite (b2u_eq d b L). apply f_equal. apply list_eq_nth.
  - rewrite mat_vec_length. unfold unit_of. rewrite map_length. destruct b; [discriminate|]. cbn in *. lia.
  - rewrite mat_vec_length. intros i Hi. rewrite bary_unit_coord, H by easy. destruct b as [|b0 b]; [discriminate|]. unfold unit_of. cbn [tl nth].
    cbn [length] in L. rewrite (nth_indep (map (fun c => 2 * c - 1) b) 0 ((fun c => 2 * c - 1) 0)) by (rewrite map_length; lia). rewrite (map_nth (fun c => 2 * c - 1)). reflexivity.
Qed.
Lemma e2u_of d b e : length b = S d -> list_sum b = 1 -> (1 <= d <= 3)%nat -> barycentric_to_equilateral b = Ok e -> equilateral_to_unit e = Ok (unit_of b).
Proof.
  intros L H Hd E. destruct (C15_equilateral b d L H Hd) as (e' & u & E1 & E2 & E3). rewrite E in E1.
  assert (e' = e) as -> by congruence. rewrite E2, <- E3. now apply (b2u_unit_of d).
Qed.
Definition eqv (d : nat) (b : list R) : list R := match equilateral_vertices d with Ok vs => mat_vec d vs b | Err _ => [] end.
Lemma b2e_eqv d b : length b = S d -> (1 <= d <= 3)%nat -> barycentric_to_equilateral b = Ok (eqv d b).
Proof.
  intros L H. unfold barycentric_to_equilateral, eqv. rewrite L. cbn [Nat.eqb]. replace (S d - 1)%nat with d by lia.
  destruct d as [|[|[|[|d]]]]; try lia; reflexivity.
Qed.
Lemma eqv2_add b d : length b = 3%nat -> length d = 3%nat -> ModelFaces.vadd (eqv 2 b) (eq2 d) = eqv 2 (ModelFaces.vadd b d).
Proof.
  destruct b as [|b0 [|b1 [|b2 [|]]]]; try discriminate. destruct d as [|d0 [|d1 [|d2 [|]]]]; try discriminate. intros _ _.
  unfold eqv, eq2, mat_vec, ModelFaces.vadd, ModelFaces.map2. cbn. pose proof s3_pos. apply cons_eq; [|apply cons_eq; [|reflexivity]]; field; lra.
Qed.
Lemma tuple_bary_len n t : length (tuple_bary n t) = S (length t).
Proof. unfold tuple_bary, unit_to_barycentric. cbv zeta. cbn [length]. now rewrite !map_length. Qed.
Lemma tuple_bary_sum n t : list_sum (tuple_bary n t) = 1.
Proof. apply u2b_sum. Qed.
Lemma move2_len F al b : length b = 3%nat -> length (move2 F al b) = 3%nat.
Proof. intros L. unfold move2, ModelFaces.vadd. rewrite ProofFaces.map2_length, L. reflexivity. Qed.
Lemma move2_nth F al b i : length b = 3%nat -> (i < 3)%nat -> nth i (move2 F al b) 0 = nth i b 0 + nth i (disp2 F al b) 0.
Proof. intros L H. unfold move2, ModelFaces.vadd. apply ProofFaces.map2_nth; rewrite ?L; [reflexivity|easy]. Qed.
Lemma sum3 b : length b = 3%nat -> list_sum b = nth 0 b 0 + nth 1 b 0 + nth 2 b 0.
Proof. destruct b as [|b0 [|b1 [|b2 [|]]]]; try discriminate. intros _. unfold list_sum. cbn. ring. Qed.

Section Run2.
  Context (eigh : eigh_t) (rj : roots_t) (n : nat) (F : R -> R).
  Hypothesis Hn : (1 <= n)%nat.
  Hypothesis HF : forall outs, warp_factor eigh rj n outs true = Ok (map F outs).
  Hypothesis Fodd : forall x, F (- x) = - F x.

  Lemma move2_sum al b : length b = 3%nat -> list_sum b = 1 -> list_sum (move2 F al b) = 1.
  Proof.
    intros L S. rewrite sum3 by now apply move2_len. rewrite !move2_nth by (easy || lia). rewrite sum3 in S by easy.
    pose proof (disp2_sum F al Fodd b). lra.
  Qed.
  Lemma wb2_run al nts ts : wb_tuples 2 n nts = Ok ts -> (forall t, In t ts -> length t = 2%nat) ->
    warp_and_blend_2d_with eigh rj al n nts = Ok (mkPts 2 (map (fun t => unit_of (move2 F al (tuple_bary n t))) ts)).
  Proof.
    intros ET HT. unfold warp_and_blend_2d_with. rewrite ET. cbn [bind]. destruct (Nat.eqb_spec n 0); [lia|].
    cbn [scale_tuples pts_cols]. rewrite map_map. fold (tuple_bary n).
    rewrite mapM_map, (mapM_ok _ (fun t => eqv 2 (tuple_bary n t))).
    2:{ intros t Hin. apply b2e_eqv; [rewrite tuple_bary_len; now rewrite HT|lia]. }
    cbn [bind]. rewrite (shift2_run eigh rj n F HF Fodd). cbn [bind]. rewrite map_map. unfold cols_add. rewrite combine_maps, map_map, mapM_map.
    rewrite (mapM_ok _ (fun t => unit_of (move2 F al (tuple_bary n t)))); [reflexivity|].
    intros t Hin. assert (L : length (tuple_bary n t) = 3%nat) by (rewrite tuple_bary_len; now rewrite HT).
    rewrite eqv2_add by (reflexivity || easy). fold (move2 F al (tuple_bary n t)).
    apply (e2u_of 2); [now apply move2_len|apply move2_sum; [easy|apply tuple_bary_sum]|lia|]. apply b2e_eqv; [now apply move2_len|lia].
  Qed.
End Run2.

(** ** Three dimensions *)
Definition vs3 : list (list R) := match equilateral_vertices 3 with Ok vs => vs | Err _ => [] end.
Definition vx (i : nat) : list R := nth i vs3 [].
(** the face opposite to vertex i1, in the order used by the code *)
Definition face_of (i1 : nat) : nat * nat * nat :=
  match i1 with 0 => (1, 2, 3) | 1 => (2, 3, 0) | 2 => (3, 0, 1) | _ => (0, 1, 2) end%nat.
Lemma normalise_is v r : 0 <= r -> sumR (map (fun t => t * t) v) = r * r -> normalise v = map (fun t => t / r) v.
Proof. intros H E. unfold normalise. now rewrite (norm2_is v r H E). Qed.
Lemma tangents_gen (a b c : list R) :
  length a = 3%nat -> length b = 3%nat -> length c = 3%nat ->
  (forall u v, (u = a /\ v = b) \/ (u = b /\ v = c) \/ (u = a /\ v = c) -> sumR (map (fun t => t * t) (ModelFaces.vsub v u)) = 4) ->
  let t1 := normalise (ModelFaces.vsub b a) in
  let t2 := ModelFaces.vsub c b in
  let t2' := ModelFaces.vsub t2 (vscale (vdot t1 t2) t1) in
  t1 = map (fun k => (nth k b 0 - nth k a 0) / 2) (seq 0 3)
  /\ normalise t2' = map (fun k => (nth k c 0 - (nth k a 0 + nth k b 0) / 2) / sqrt 3) (seq 0 3).
Proof.
  destruct a as [|a0 [|a1 [|a2 [|]]]]; try discriminate. destruct b as [|b0 [|b1 [|b2 [|]]]]; try discriminate. destruct c as [|c0 [|c1 [|c2 [|]]]]; try discriminate.
  intros _ _ _ H. pose proof (H _ _ (or_introl (conj eq_refl eq_refl))) as H1.
  pose proof (H _ _ (or_intror (or_introl (conj eq_refl eq_refl)))) as H2.
  pose proof (H _ _ (or_intror (or_intror (conj eq_refl eq_refl)))) as H3. clear H.
  unfold ModelFaces.vsub, ModelFaces.map2, sumR in H1, H2, H3. cbn [combine map fold_right] in H1, H2, H3.
  cbv zeta. rewrite (normalise_is _ 2) by (try lra; unfold ModelFaces.vsub, ModelFaces.map2, sumR; cbn [combine map fold_right]; lra).
  unfold ModelFaces.vsub, ModelFaces.map2, vdot, vscale, sumR. cbn [combine map fold_right seq nth]. split; [reflexivity|].
  unfold ModelFaces.map2. cbn [combine map fold_right].
  assert (D : (b0 - a0) / 2 * (c0 - b0) + ((b1 - a1) / 2 * (c1 - b1) + ((b2 - a2) / 2 * (c2 - b2) + 0)) = -1) by lra.
  rewrite D. rewrite (normalise_is _ (sqrt 3)).
  - cbn [map]. f_equal; [|f_equal; [|f_equal]]; f_equal; lra.
  - left. apply s3_pos.
  - rewrite s3_sq. unfold sumR. cbn [map fold_right]. lra.
Qed.
Lemma edges3 i j : (i < j < 4)%nat -> sumR (map (fun t => t * t) (ModelFaces.vsub (vx i) (vx j))) = 4 /\ sumR (map (fun t => t * t) (ModelFaces.vsub (vx j) (vx i))) = 4.
Proof.
  intros H. destruct sqrt_facts as (S3 & S6 & P3 & P6).
  assert (K : ((i, j) = (0, 1) \/ (i, j) = (0, 2) \/ (i, j) = (0, 3) \/ (i, j) = (1, 2) \/ (i, j) = (1, 3) \/ (i, j) = (2, 3))%nat).
  { destruct i as [|[|[|i]]], j as [|[|[|[|j]]]]; try lia; tauto. }
  repeat destruct K as [K|K]; injection K as -> ->; unfold vx, vs3, sumR; cbn [equilateral_vertices nth ModelFaces.vsub]; unfold ModelFaces.vsub, ModelFaces.map2;
    cbn [combine map fold_right]; rewrite !inv_s3, !inv_s6; lra.
Qed.
Lemma vx_len i : (i < 4)%nat -> length (vx i) = 3%nat.
Proof. intros H. unfold vx, vs3. cbn [equilateral_vertices]. destruct i as [|[|[|[|i]]]]; try lia; reflexivity. Qed.
Lemma edges3' i j : (i < 4)%nat -> (j < 4)%nat -> i <> j -> sumR (map (fun t => t * t) (ModelFaces.vsub (vx i) (vx j))) = 4.
Proof. intros Hi Hj N. destruct (Nat.lt_total i j) as [H|[H|H]]; [exact (proj1 (edges3 i j (conj H Hj)))|easy|exact (proj2 (edges3 j i (conj H Hi)))]. Qed.
Lemma face_tangents_ok i1 : (i1 < 4)%nat ->
  let '(i2, i3, i4) := face_of i1 in
  face_tangents vs3 i1 = (map (fun k => (nth k (vx i3) 0 - nth k (vx i2) 0) / 2) (seq 0 3),
                          map (fun k => (nth k (vx i4) 0 - (nth k (vx i2) 0 + nth k (vx i3) 0) / 2) / sqrt 3) (seq 0 3)).
Proof.
  intros H. destruct (face_of i1) as [[i2 i3] i4] eqn:EF. unfold face_tangents. cbv zeta.
  assert (E : ((i1 + (4 - 3)) mod 4 = i2 /\ (i1 + (4 - 2)) mod 4 = i3 /\ (i1 + (4 - 1)) mod 4 = i4 /\ i2 < 4 /\ i3 < 4 /\ i4 < 4 /\ i2 <> i3 /\ i3 <> i4 /\ i2 <> i4)%nat).
  { assert (i1 = 0 \/ i1 = 1 \/ i1 = 2 \/ i1 = 3)%nat as [-> | [-> | [-> | ->]]] by lia; injection EF as <- <- <-; cbn; lia. }
  destruct E as (E1 & E2 & E3 & L2 & L3 & L4 & N23 & N34 & N24). rewrite E1, E2, E3. fold (vx i2) (vx i3) (vx i4).
  destruct (tangents_gen (vx i2) (vx i3) (vx i4)) as [T1 T2]; try now apply vx_len.
  - intros u v [[-> ->]|[[-> ->]|[-> ->]]]; apply edges3'; auto.
  - cbv zeta in T2. rewrite T2. now rewrite T1.
Qed.

(** Displacements as four barycentric coefficients *)
Definition embed (i1 : nat) (d : list R) : list R :=
  let '(i2, i3, i4) := face_of i1 in
  map (fun j => if (j =? i2)%nat then nth 0 d 0 else if (j =? i3)%nat then nth 1 d 0 else if (j =? i4)%nat then nth 2 d 0 else 0) (seq 0 4).
Definition sub3 (i1 : nat) (b : list R) : list R := let '(i2, i3, i4) := face_of i1 in [nth i2 b 0; nth i3 b 0; nth i4 b 0].
Definition blend_of (al : R) (i1 : nat) (b : list R) : R :=
  let '(i2, i3, i4) := face_of i1 in blend3 al (nth i1 b 0) (nth i2 b 0) (nth i3 b 0) (nth i4 b 0).
Definition face_at (i1 : nat) (b : list R) : bool :=
  let '(i2, i3, i4) := face_of i1 in is_face (nth i1 b 0) (nth i2 b 0) (nth i3 b 0) (nth i4 b 0).
Definition fdisp (F : R -> R) (al : R) (i1 : nat) (b : list R) : list R := embed i1 (disp2 F al (sub3 i1 b)).
Definition step3 (F : R -> R) (al : R) (b s : list R) (i1 : nat) : list R :=
  if face_at i1 b then fdisp F al i1 b else ModelFaces.vadd s (vscale (blend_of al i1 b) (fdisp F al i1 b)).
Definition disp3 (F : R -> R) (al : R) (b : list R) : list R := fold_left (step3 F al b) (seq 0 4) [0; 0; 0; 0].
Definition move3 (F : R -> R) (al : R) (b : list R) : list R := ModelFaces.vadd b (disp3 F al b).

Lemma eqv3_eq s : eqv 3 s = map (fun k => rsum (fun j => nth k (vx j) 0 * nth j s 0) 4) (seq 0 3).
Proof. reflexivity. Qed.
Lemma embed_len i1 d : length (embed i1 d) = 4%nat.
Proof. unfold embed. destruct (face_of i1) as [[i2 i3] i4]. now rewrite map_length. Qed.
Lemma step3_len F al b s i1 : length s = 4%nat -> length (step3 F al b s i1) = 4%nat.
Proof.
  intros L. unfold step3. destruct (face_at i1 b); [apply embed_len|]. unfold ModelFaces.vadd. rewrite ProofFaces.map2_length. unfold vscale.
  rewrite map_length. unfold fdisp. rewrite embed_len, L. reflexivity.
Qed.
Lemma disp3_len F al b : length (disp3 F al b) = 4%nat.
Proof. unfold disp3. cbn [seq fold_left]. do 4 apply step3_len. reflexivity. Qed.
Lemma case4 (P : nat -> Prop) : P 0%nat -> P 1%nat -> P 2%nat -> P 3%nat -> forall i, (i < 4)%nat -> P i.
Proof. intros H0 H1 H2 H3 i Hi. destruct i as [|[|[|[|i]]]]; try lia; assumption. Qed.

Lemma map_eq3 (f g : nat -> R) : f 0%nat = g 0%nat -> f 1%nat = g 1%nat -> f 2%nat = g 2%nat -> map f (seq 0 3) = map g (seq 0 3).
Proof. intros E0 E1 E2. cbn [seq map]. now rewrite E0, E1, E2. Qed.
Lemma vadd_maps (f g : nat -> R) l : ModelFaces.vadd (map f l) (map g l) = map (fun k => f k + g k) l.
Proof. apply map2_maps. Qed.
Lemma vscale_map k (f : nat -> R) l : vscale k (map f l) = map (fun i => k * f i) l.
Proof. unfold vscale. apply map_map. Qed.

(** A face displacement of the 2D routine, along the tangents of face i1 *)
Lemma face_vec i1 d k : (i1 < 4)%nat -> nth 0 d 0 + nth 1 d 0 + nth 2 d 0 = 0 ->
  let '(t1, t2) := face_tangents vs3 i1 in
  forall s, length s = 4%nat ->
  ModelFaces.vadd (ModelFaces.vadd (eqv 3 s) (vscale (k * nth 0 (eq2 d) 0) t1)) (vscale (k * nth 1 (eq2 d) 0) t2)
  = eqv 3 (ModelFaces.vadd s (vscale k (embed i1 d)))
  /\ ModelFaces.vadd (vscale (nth 0 (eq2 d) 0) t1) (vscale (nth 1 (eq2 d) 0) t2) = eqv 3 (embed i1 d).
Proof.
  intros Hi Sd. pose proof (face_tangents_ok i1 Hi) as T. pose proof s3_pos as P. destruct (face_of i1) as [[i2 i3] i4] eqn:EF. rewrite T.
  intros s L. destruct s as [|s0 [|s1 [|s2 [|s3 [|]]]]]; try discriminate.
  rewrite !eqv3_eq, !vscale_map, !vadd_maps. unfold embed. rewrite EF. cbn [eq2 nth].
  set (d0 := nth 0 d 0) in *. set (d1 := nth 1 d 0) in *. set (d2 := nth 2 d 0) in *.
  assert (E2 : d2 = - d0 - d1) by lra. clearbody d0 d1 d2. subst d2. clear T Sd.
  assert (i1 = 0 \/ i1 = 1 \/ i1 = 2 \/ i1 = 3)%nat as [-> | [-> | [-> | ->]]] by lia; cbn [face_of] in EF; injection EF as <- <- <-;
    (split; apply map_ext; intros j; cbn [rsum map seq Nat.eqb nth]; unfold vscale, ModelFaces.vadd, ModelFaces.map2; cbn [map combine nth]; (rewrite div_s3 || rewrite div_s3k); field).
Qed.

Section Run3.
  Context (eigh : eigh_t) (rj : roots_t) (n : nat) (F : R -> R).
  Hypothesis Hn : (1 <= n)%nat.
  Hypothesis HF : forall outs, warp_factor eigh rj n outs true = Ok (map F outs).
  Hypothesis Fodd : forall x, F (- x) = - F x.

  Lemma step3_run al bary (s : list R -> list R) i1 : (i1 < 4)%nat -> (forall b, length (s b) = 4%nat) ->
    shift3_step eigh rj n bary al (map (fun b => eqv 3 (s b)) bary) (i1, fst (fst (face_of i1)), snd (fst (face_of i1)), snd (face_of i1))
    = Ok (map (fun b => eqv 3 (step3 F al b (s b) i1)) bary).
  Proof.
    intros Hi Ls. unfold shift3_step. replace (equilateral_vertices 3) with (Ok vs3) by reflexivity. cbn [bind].
    assert (FV := fun d k => face_vec i1 d k Hi).
    destruct (face_tangents vs3 i1) as [t1 t2]. rewrite (shift2_run eigh rj n F HF Fodd). cbn [bind]. rewrite map_map. unfold row. rewrite !map_map.
    rewrite !map2_maps, !add_along_maps, !combine_maps, map_map. apply f_equal. apply map_ext. intros b.
    unfold assign_face, step3, face_at, blend_of, fdisp, sub3. destruct (face_of i1) as [[i2 i3] i4]. cbn [fst snd].
    set (d := disp2 F al [nth i2 b 0; nth i3 b 0; nth i4 b 0]).
    destruct (FV d (blend3 al (nth i1 b 0) (nth i2 b 0) (nth i3 b 0) (nth i4 b 0)) (disp2_sum F al Fodd _) (s b) (Ls b)) as [E1 E2].
    destruct (is_face _ _ _ _); [exact E2|exact E1].
  Qed.
  Lemma embed_sum i1 d : (i1 < 4)%nat -> nth 0 d 0 + nth 1 d 0 + nth 2 d 0 = 0 -> list_sum (embed i1 d) = 0.
  Proof.
    intros Hi S. revert i1 Hi. apply (case4 (fun i1 => list_sum (embed i1 d) = 0)); unfold embed; cbn [face_of seq map Nat.eqb]; unfold list_sum; cbn [fold_right]; lra.
  Qed.
  Lemma list_sum_vadd u v : length u = length v -> list_sum (ModelFaces.vadd u v) = list_sum u + list_sum v.
  Proof.
    revert v. unfold ModelFaces.vadd, ModelFaces.map2, list_sum. induction u as [|a u IH]; intros [|b v] L; try discriminate; cbn [combine map fold_right]; [ring|].
    injection L as L. rewrite IH by easy. ring.
  Qed.
  Lemma list_sum_vscale k v : list_sum (vscale k v) = k * list_sum v.
  Proof. unfold vscale, list_sum. induction v as [|a v IH]; cbn [map fold_right]; [ring|]. rewrite IH. ring. Qed.
  Lemma step3_sum al b s i1 : (i1 < 4)%nat -> length s = 4%nat -> list_sum s = 0 -> list_sum (step3 F al b s i1) = 0.
  Proof.
    intros Hi L S. unfold step3. assert (Z : list_sum (fdisp F al i1 b) = 0) by (apply embed_sum; [easy|apply (disp2_sum F al Fodd)]).
    destruct (face_at i1 b); [exact Z|]. rewrite list_sum_vadd, list_sum_vscale, S, Z; [ring|]. unfold vscale. rewrite map_length. unfold fdisp. now rewrite embed_len.
  Qed.
  Lemma disp3_sum al b : list_sum (disp3 F al b) = 0.
  Proof.
    unfold disp3. cbn [seq fold_left].
    repeat (apply step3_sum; [lia|repeat apply step3_len; reflexivity|]). unfold list_sum. cbn. ring.
  Qed.
  Lemma move3_len al b : length b = 4%nat -> length (move3 F al b) = 4%nat.
  Proof. intros L. unfold move3, ModelFaces.vadd. rewrite ProofFaces.map2_length, L, disp3_len. reflexivity. Qed.
  Lemma eqv3_add s d : length s = 4%nat -> length d = 4%nat -> ModelFaces.vadd (eqv 3 s) (eqv 3 d) = eqv 3 (ModelFaces.vadd s d).
  Proof.
    destruct s as [|s0 [|s1 [|s2 [|s3 [|]]]]]; try discriminate. destruct d as [|d0 [|d1 [|d2 [|d3 [|]]]]]; try discriminate. intros _ _.
    rewrite !eqv3_eq, vadd_maps. apply map_ext. intros j. unfold ModelFaces.vadd, ModelFaces.map2. cbn [rsum combine map nth]. ring.
  Qed.
  Lemma wb3_run al nts ts : wb_tuples 3 n nts = Ok ts -> (forall t, In t ts -> length t = 3%nat) ->
    warp_and_blend_3d_with eigh rj al n nts = Ok (mkPts 3 (map (fun t => unit_of (move3 F al (tuple_bary n t))) ts)).
  Proof.
    intros ET HT. unfold warp_and_blend_3d_with. rewrite ET. cbn [bind]. destruct (Nat.eqb_spec n 0); [lia|].
    cbn [scale_tuples pts_cols]. rewrite map_map. fold (tuple_bary n).
    rewrite mapM_map, (mapM_ok _ (fun t => eqv 3 (tuple_bary n t))).
    2:{ intros t Hin. apply b2e_eqv; [rewrite tuple_bary_len; now rewrite HT|lia]. }
    cbn [bind]. rewrite map_map.
    set (bary := map (tuple_bary n) ts).
    replace (map (fun _ => [0; 0; 0]) ts) with (map (fun b => eqv 3 ((fun _ => [0; 0; 0; 0]) b)) bary).
    2:{ unfold bary. rewrite map_map. apply map_ext. intros t. unfold eqv, mat_vec. cbn. repeat (apply cons_eq; [ring|]). reflexivity. }
    cbn [ModelGM.foldM].
    pose proof (step3_run al bary (fun _ => [0; 0; 0; 0]) 0 ltac:(lia) ltac:(reflexivity)) as E0. cbn [face_of fst snd] in E0. rewrite E0. clear E0. cbn [bind].
    pose proof (step3_run al bary (fun b => step3 F al b [0; 0; 0; 0] 0) 1 ltac:(lia) ltac:(intros; repeat apply step3_len; reflexivity)) as E0. cbn [face_of fst snd] in E0. rewrite E0. clear E0. cbn [bind].
    pose proof (step3_run al bary (fun b => step3 F al b (step3 F al b [0; 0; 0; 0] 0) 1) 2 ltac:(lia) ltac:(intros; repeat apply step3_len; reflexivity)) as E0. cbn [face_of fst snd] in E0. rewrite E0. clear E0. cbn [bind].
    pose proof (step3_run al bary (fun b => step3 F al b (step3 F al b (step3 F al b [0; 0; 0; 0] 0) 1) 2) 3 ltac:(lia) ltac:(intros; repeat apply step3_len; reflexivity)) as E0. cbn [face_of fst snd] in E0. rewrite E0. clear E0. cbn [bind].
    unfold bary. rewrite map_map. unfold cols_add. rewrite combine_maps, map_map, mapM_map.
    rewrite (mapM_ok _ (fun t => unit_of (move3 F al (tuple_bary n t)))); [reflexivity|].
    intros t Hin. assert (L : length (tuple_bary n t) = 4%nat) by (rewrite tuple_bary_len; now rewrite HT).
    change (step3 F al (tuple_bary n t) (step3 F al (tuple_bary n t) (step3 F al (tuple_bary n t) (step3 F al (tuple_bary n t) [0; 0; 0; 0] 0) 1) 2) 3) with (disp3 F al (tuple_bary n t)).
    rewrite eqv3_add by (easy || apply disp3_len). fold (move3 F al (tuple_bary n t)).
    apply (e2u_of 3); [now apply move3_len| |lia|apply b2e_eqv; [now apply move3_len|lia]].
    unfold move3. rewrite list_sum_vadd by now rewrite disp3_len. rewrite tuple_bary_sum, disp3_sum. ring.
  Qed.
End Run3.
