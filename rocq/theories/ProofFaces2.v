(** * The faces of segment, triangle, tetrahedron, square and cube, written out *)
From Coq Require Import List Arith Bool Reals Lra Lia.
From Verif Require Import Py PyToolsModel RSum ModelNd ModelShapes ModelSpaces ModelNodes ModelFaces SpecGeometry SpecFaces ProofFaces.
Import ListNotations.
Local Open Scope R_scope.

Definition cube (d : nat) : shape := TPShape CHypercube d (repeat (Simplex 1) d).
Lemma cube_is d : (d <> 1)%nat -> mk_Hypercube d = Ok (cube d).
Proof.
  intros N. unfold mk_Hypercube, cube. destruct (Nat.eqb_spec d 1); [easy|]. unfold tp_init.
  assert (F : forall n, shape_flatten (repeat (Simplex 1) n) = repeat (Simplex 1) n).
  { induction n0 as [|m IH]; [reflexivity|]. unfold shape_flatten in *. cbn [repeat map concat_tuples app]. cbn [repeat map] in IH. unfold concat_tuples in *. cbn [fold_right] in *. cbn. f_equal. exact IH. }
  rewrite F. assert (E : filter (fun s => (shape_dim s =? 1)%nat) (repeat (Simplex 1) d) = repeat (Simplex 1) d) by (clear; induction d; cbn; congruence).
  rewrite E. destruct (Nat.ltb_spec (length (repeat (Simplex 1) d)) (length (repeat (Simplex 1) d) - 1)); [lia|].
  f_equal. f_equal. clear. induction d as [|d IH]; [reflexivity|]. cbn [repeat map sum_nat]. unfold sum_nat in *. cbn in *. now rewrite IH.
Qed.
Lemma cube2_vertices : unit_vertices_for_shape (cube 2) = Ok (mkPts 2 [[-1;-1];[1;-1];[-1;1];[1;1]]).
Proof. vm_compute. reflexivity. Qed.
Lemma cube3_vertices : unit_vertices_for_shape (cube 3) = Ok (mkPts 3 [[-1;-1;-1];[1;-1;-1];[-1;1;-1];[1;1;-1];[-1;-1;1];[1;-1;1];[-1;1;1];[1;1;1]]).
Proof. vm_compute. reflexivity. Qed.

Definition simplex1_faces : list face :=
  [mkFace (Simplex 0) (Simplex 1) 0 [0]%nat (simplex_face_to_vol_map 1 [[-1]]);
   mkFace (Simplex 0) (Simplex 1) 1 [1]%nat (simplex_face_to_vol_map 1 [[1]])].
Lemma simplex1_faces_ok : faces_for_shape (Simplex 1) = Ok simplex1_faces.
Proof. reflexivity. Qed.
Definition simplex2_faces : list face :=
  [mkFace (Simplex 1) (Simplex 2) 0 [0; 1]%nat (simplex_face_to_vol_map 2 [[-1; -1]; [1; -1]]);
   mkFace (Simplex 1) (Simplex 2) 1 [2; 0]%nat (simplex_face_to_vol_map 2 [[-1; 1]; [-1; -1]]);
   mkFace (Simplex 1) (Simplex 2) 2 [1; 2]%nat (simplex_face_to_vol_map 2 [[1; -1]; [-1; 1]])].
Lemma simplex2_faces_ok : faces_for_shape (Simplex 2) = Ok simplex2_faces.
Proof. reflexivity. Qed.
Definition simplex3_faces : list face :=
  [mkFace (Simplex 2) (Simplex 3) 0 [0; 2; 1]%nat (simplex_face_to_vol_map 3 [[-1; -1; -1]; [-1; 1; -1]; [1; -1; -1]]);
   mkFace (Simplex 2) (Simplex 3) 1 [0; 1; 3]%nat (simplex_face_to_vol_map 3 [[-1; -1; -1]; [1; -1; -1]; [-1; -1; 1]]);
   mkFace (Simplex 2) (Simplex 3) 2 [0; 3; 2]%nat (simplex_face_to_vol_map 3 [[-1; -1; -1]; [-1; -1; 1]; [-1; 1; -1]]);
   mkFace (Simplex 2) (Simplex 3) 3 [1; 2; 3]%nat (simplex_face_to_vol_map 3 [[1; -1; -1]; [-1; 1; -1]; [-1; -1; 1]])].
Lemma simplex3_faces_ok : faces_for_shape (Simplex 3) = Ok simplex3_faces.
Proof. reflexivity. Qed.
Definition cube2_faces : list face :=
  [mkFace (Simplex 1) (cube 2) 0 [0; 1]%nat (hypercube_face_to_vol_map 2 [[-1; -1]; [1; -1]]);
   mkFace (Simplex 1) (cube 2) 1 [3; 2]%nat (hypercube_face_to_vol_map 2 [[1; 1]; [-1; 1]]);
   mkFace (Simplex 1) (cube 2) 2 [2; 0]%nat (hypercube_face_to_vol_map 2 [[-1; 1]; [-1; -1]]);
   mkFace (Simplex 1) (cube 2) 3 [1; 3]%nat (hypercube_face_to_vol_map 2 [[1; -1]; [1; 1]])].
Lemma cube2_faces_ok : faces_for_shape (cube 2) = Ok cube2_faces.
Proof. vm_compute. reflexivity. Qed.
Definition cube3_faces : list face :=
  [mkFace (cube 2) (cube 3) 0 [0; 2; 1; 3]%nat (hypercube_face_to_vol_map 3 [[-1; -1; -1]; [-1; 1; -1]; [1; -1; -1]; [1; 1; -1]]);
   mkFace (cube 2) (cube 3) 1 [4; 5; 6; 7]%nat (hypercube_face_to_vol_map 3 [[-1; -1; 1]; [1; -1; 1]; [-1; 1; 1]; [1; 1; 1]]);
   mkFace (cube 2) (cube 3) 2 [0; 4; 2; 6]%nat (hypercube_face_to_vol_map 3 [[-1; -1; -1]; [-1; -1; 1]; [-1; 1; -1]; [-1; 1; 1]]);
   mkFace (cube 2) (cube 3) 3 [1; 3; 5; 7]%nat (hypercube_face_to_vol_map 3 [[1; -1; -1]; [1; 1; -1]; [1; -1; 1]; [1; 1; 1]]);
   mkFace (cube 2) (cube 3) 4 [0; 1; 4; 5]%nat (hypercube_face_to_vol_map 3 [[-1; -1; -1]; [1; -1; -1]; [-1; -1; 1]; [1; -1; 1]]);
   mkFace (cube 2) (cube 3) 5 [2; 6; 3; 7]%nat (hypercube_face_to_vol_map 3 [[-1; 1; -1]; [-1; 1; 1]; [1; 1; -1]; [1; 1; 1]])].
Lemma cube3_faces_ok : faces_for_shape (cube 3) = Ok cube3_faces.
Proof. vm_compute. reflexivity. Qed.

(** ** The elements and their boundaries, in coordinates *)
Ltac len_cases x := 
  repeat match goal with
  | L : length x = _ |- _ => destruct x as [|? x]; cbn [length] in L; [try discriminate L | try (injection L as L)]
  end.
Lemma len0 (x : list R) : length x = 0%nat -> x = [].
Proof. destruct x; [easy|discriminate]. Qed.
Lemma len1 (x : list R) : length x = 1%nat -> exists a, x = [a].
Proof. destruct x as [|a [|]]; try discriminate. eauto. Qed.
Lemma len2 (x : list R) : length x = 2%nat -> exists a b, x = [a; b].
Proof. destruct x as [|a [|b [|]]]; try discriminate. eauto. Qed.
Lemma len3 (x : list R) : length x = 3%nat -> exists a b c, x = [a; b; c].
Proof. destruct x as [|a [|b [|c [|]]]]; try discriminate. eauto. Qed.
Ltac fa := repeat (apply Forall_cons; [cbn; lra|]); apply Forall_nil.
Ltac forall_inv := repeat match goal with H : Forall _ (_ :: _) |- _ => inversion H; subst; clear H | H : Forall _ [] |- _ => clear H end.

Lemma in_point x : in_shape (Simplex 0) x <-> x = [].
Proof.
  cbn [in_shape]. unfold in_simplex. split; [intros (L & _); now apply len0|]. intros ->. split; [easy|]. split; [constructor|]. cbn. lra.
Qed.
Lemma in_segment x : in_shape (Simplex 1) x <-> exists a, x = [a] /\ -1 <= a <= 1.
Proof.
  cbn [in_shape]. unfold in_simplex. split.
  - intros (L & F & S). destruct (len1 x L) as [a ->]. forall_inv. cbn in S. exists a. split; [easy|lra].
  - intros (a & -> & H). split; [easy|]. split; [fa|]. cbn. lra.
Qed.
Lemma in_triangle x : in_shape (Simplex 2) x <-> exists a b, x = [a; b] /\ -1 <= a /\ -1 <= b /\ a + b <= 0.
Proof.
  cbn [in_shape]. unfold in_simplex. split.
  - intros (L & F & S). destruct (len2 x L) as (a & b & ->). forall_inv. cbn in S. exists a, b. split; [easy|lra].
  - intros (a & b & -> & H). split; [easy|]. split; [fa|]. cbn. lra.
Qed.
Lemma in_tet x : in_shape (Simplex 3) x <-> exists a b c, x = [a; b; c] /\ -1 <= a /\ -1 <= b /\ -1 <= c /\ a + b + c <= -1.
Proof.
  cbn [in_shape]. unfold in_simplex. split.
  - intros (L & F & S). destruct (len3 x L) as (a & b & c & ->). forall_inv. cbn in S. exists a, b, c. split; [easy|lra].
  - intros (a & b & c & -> & H). split; [easy|]. split; [fa|]. cbn. lra.
Qed.
Lemma in_square x : in_shape (cube 2) x <-> exists a b, x = [a; b] /\ -1 <= a <= 1 /\ -1 <= b <= 1.
Proof.
  split.
  - intros (p & q & -> & Hp & (p' & q' & -> & Hp' & ->)). apply in_segment in Hp, Hp'. destruct Hp as (a & -> & Ha), Hp' as (b & -> & Hb). exists a, b. easy.
  - intros (a & b & -> & Ha & Hb). exists [a], [b]. split; [easy|]. split; [apply in_segment; eauto|]. exists [b], []. split; [easy|]. split; [apply in_segment; eauto|reflexivity].
Qed.
Lemma in_cube3 x : in_shape (cube 3) x <-> exists a b c, x = [a; b; c] /\ -1 <= a <= 1 /\ -1 <= b <= 1 /\ -1 <= c <= 1.
Proof.
  split.
  - intros (p & q & -> & Hp & (p' & q' & -> & Hp' & (p2 & q2 & -> & Hp2 & ->))). apply in_segment in Hp, Hp', Hp2. destruct Hp as (a & -> & Ha), Hp' as (b & -> & Hb), Hp2 as (c & -> & Hc). exists a, b, c. easy.
  - intros (a & b & c & -> & Ha & Hb & Hc). exists [a], [b; c]. split; [easy|]. split; [apply in_segment; eauto|]. exists [b], [c]. split; [easy|]. split; [apply in_segment; eauto|].
    exists [c], []. split; [easy|]. split; [apply in_segment; eauto|reflexivity].
Qed.
(** Active inequality *)
Ltac nonzero_rows := repeat (apply Forall_cons; [|]); try apply Forall_nil; (split; [reflexivity|cbn [fst]]);
  first [exists 1; split; [cbn [In]; tauto|lra] | exists (-1); split; [cbn [In]; tauto|lra]].
Ltac in_cases H := cbn [In] in H; repeat (destruct H as [H|H]); try contradiction; subst; cbn [fst snd dot] in *.
Lemma bd_segment x : boundary (in_shape (Simplex 1)) x <-> exists a, x = [a] /\ (a = -1 \/ a = 1).
Proof.
  set (cs := [([-1], 1); ([1], 1)]). rewrite (boundary_ext _ (polytope 1 cs)).
  2:{ intros y. rewrite in_segment. unfold polytope, cs. split.
      - intros (a & -> & H). split; [easy|]. fa.
      - intros [L F]. destruct (len1 y L) as [a ->]. forall_inv. cbn in *. exists a. split; [easy|lra]. }
  rewrite polytope_boundary by (unfold cs; nonzero_rows). split.
  - intros [[L F] (c & HI & E)]. destruct (len1 x L) as [a ->]. exists a. split; [easy|]. unfold cs in HI. in_cases HI; lra.
  - intros (a & -> & H). split; [split; [easy|]; unfold cs; fa|]. destruct H as [-> | ->]; [exists ([-1], 1)|exists ([1], 1)]; (split; [unfold cs; cbn [In]; tauto|cbn; lra]).
Qed.
Ltac pick := repeat match goal with |- (exists c, In c ?cs /\ _) => unfold cs end;
  first [ eexists; split; [left; reflexivity|cbn; lra] | eexists; split; [right; left; reflexivity|cbn; lra] | eexists; split; [right; right; left; reflexivity|cbn; lra]
        | eexists; split; [right; right; right; left; reflexivity|cbn; lra] | eexists; split; [right; right; right; right; left; reflexivity|cbn; lra] | eexists; split; [right; right; right; right; right; left; reflexivity|cbn; lra] ].
Lemma bd_triangle x : boundary (in_shape (Simplex 2)) x <-> exists a b, x = [a; b] /\ (-1 <= a /\ -1 <= b /\ a + b <= 0) /\ (a = -1 \/ b = -1 \/ a + b = 0).
Proof.
  set (cs := [([-1; 0], 1); ([0; -1], 1); ([1; 1], 0)]). rewrite (boundary_ext _ (polytope 2 cs)).
  2:{ intros y. rewrite in_triangle. unfold polytope, cs. split.
      - intros (a & b & -> & H). split; [easy|]. fa.
      - intros [L F]. destruct (len2 y L) as (a & b & ->). forall_inv. cbn in *. exists a, b. split; [easy|lra]. }
  rewrite polytope_boundary by (unfold cs; nonzero_rows). split.
  - intros [[L F] (c & HI & E)]. destruct (len2 x L) as (a & b & ->). exists a, b. split; [easy|]. unfold cs in HI, F. forall_inv. cbn [fst snd dot] in *. split; [lra|]. in_cases HI; lra.
  - intros (a & b & -> & H1 & H). split; [split; [easy|]; unfold cs; fa|]. unfold cs. destruct H as [H|[H|H]]; pick.
Qed.
Lemma bd_tet x : boundary (in_shape (Simplex 3)) x <-> exists a b c, x = [a; b; c] /\ (-1 <= a /\ -1 <= b /\ -1 <= c /\ a + b + c <= -1) /\ (a = -1 \/ b = -1 \/ c = -1 \/ a + b + c = -1).
Proof.
  set (cs := [([-1; 0; 0], 1); ([0; -1; 0], 1); ([0; 0; -1], 1); ([1; 1; 1], -1)]). rewrite (boundary_ext _ (polytope 3 cs)).
  2:{ intros y. rewrite in_tet. unfold polytope, cs. split.
      - intros (a & b & c & -> & H). split; [easy|]. fa.
      - intros [L F]. destruct (len3 y L) as (a & b & c & ->). forall_inv. cbn in *. exists a, b, c. split; [easy|lra]. }
  rewrite polytope_boundary by (unfold cs; nonzero_rows). split.
  - intros [[L F] (k & HI & E)]. destruct (len3 x L) as (a & b & c & ->). exists a, b, c. split; [easy|]. unfold cs in HI, F. forall_inv. cbn [fst snd dot] in *. split; [lra|]. in_cases HI; lra.
  - intros (a & b & c & -> & H1 & H). split; [split; [easy|]; unfold cs; fa|]. unfold cs. destruct H as [H|[H|[H|H]]]; pick.
Qed.
Lemma bd_square x : boundary (in_shape (cube 2)) x <-> exists a b, x = [a; b] /\ (-1 <= a <= 1 /\ -1 <= b <= 1) /\ (a = -1 \/ a = 1 \/ b = -1 \/ b = 1).
Proof.
  set (cs := [([-1; 0], 1); ([1; 0], 1); ([0; -1], 1); ([0; 1], 1)]). rewrite (boundary_ext _ (polytope 2 cs)).
  2:{ intros y. rewrite in_square. unfold polytope, cs. split.
      - intros (a & b & -> & H). split; [easy|]. fa.
      - intros [L F]. destruct (len2 y L) as (a & b & ->). forall_inv. cbn in *. exists a, b. split; [easy|lra]. }
  rewrite polytope_boundary by (unfold cs; nonzero_rows). split.
  - intros [[L F] (k & HI & E)]. destruct (len2 x L) as (a & b & ->). exists a, b. split; [easy|]. unfold cs in HI, F. forall_inv. cbn [fst snd dot] in *. split; [lra|]. in_cases HI; lra.
  - intros (a & b & -> & H1 & H). split; [split; [easy|]; unfold cs; fa|]. unfold cs. destruct H as [H|[H|[H|H]]]; pick.
Qed.
Lemma bd_cube3 x : boundary (in_shape (cube 3)) x <-> exists a b c, x = [a; b; c] /\ (-1 <= a <= 1 /\ -1 <= b <= 1 /\ -1 <= c <= 1) /\ (a = -1 \/ a = 1 \/ b = -1 \/ b = 1 \/ c = -1 \/ c = 1).
Proof.
  set (cs := [([-1; 0; 0], 1); ([1; 0; 0], 1); ([0; -1; 0], 1); ([0; 1; 0], 1); ([0; 0; -1], 1); ([0; 0; 1], 1)]). rewrite (boundary_ext _ (polytope 3 cs)).
  2:{ intros y. rewrite in_cube3. unfold polytope, cs. split.
      - intros (a & b & c & -> & H). split; [easy|]. fa.
      - intros [L F]. destruct (len3 y L) as (a & b & c & ->). forall_inv. cbn in *. exists a, b, c. split; [easy|lra]. }
  rewrite polytope_boundary by (unfold cs; nonzero_rows). split.
  - intros [[L F] (k & HI & E)]. destruct (len3 x L) as (a & b & c & ->). exists a, b, c. split; [easy|]. unfold cs in HI, F. forall_inv. cbn [fst snd dot] in *. split; [lra|]. in_cases HI; lra.
  - intros (a & b & c & -> & H1 & H). split; [split; [easy|]; unfold cs; fa|]. unfold cs. destruct H as [H|[H|[H|[H|[H|H]]]]]; pick.
Qed.
