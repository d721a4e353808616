(** * The divergence theorem for polynomials on the reference elements *)
From Coquelicot Require Import Coquelicot.
From Coq Require Import List Arith Bool ZArith Reals Lra Lia Factorial.
From Verif Require Import Py PyToolsModel RSum IntFacts ModelNd ModelShapes ModelSpaces ModelNodes ModelFaces SpecGeometry SpecFaces SpecIntegral SpecIndex SpecPoly SpecPartial
  ProofDirichlet ProofFaces ProofFaces2 PropsFaces ProofMatrices2 ProofUnisolvent ProofGradGood2 PropsQuad ProofDivergence.
Import ListNotations.
Local Open Scope R_scope.

(** Derivative of a monomial in the coordinates of [half], integrated. *)
Definition vol_moment (s : shape) (e : list nat) (k : nat) (v : R) : Prop := is_int s (fun x => INR (nth k e 0%nat) / 2 * monoval (dec k e) (half x)) v.

Lemma pow0 a : 0 ^ S a = 0.
Proof. cbn. ring. Qed.
Ltac vol_simplex d e := eapply int_cast; [apply is_int_scal, (dirichlet_ref d e eq_refl)|].

Definition wsum (d : nat) (ns : list (list R)) (ms : list R) (k : nat) : R := rsum (fun i => nth k (nth i ns []) 0 / 2 ^ (d - 1) * nth i ms 0) (length ms).

Lemma seg_volume a : vol_moment (Simplex 1) [a] 0 (wsum 1 seg_n (seg_moments a) 0).
Proof.
  unfold vol_moment, wsum, half. cbn [dec nth]. vol_simplex 1%nat [pred a]. unfold prodfact, total, seg_moments, seg_n. cbn [map fold_right rsum length nth Nat.sub pow].
  rewrite Nat.mul_1_r, Nat.add_0_r. destruct a as [|a]; [cbn; field|]. cbn [pred]. rewrite pow0, Nat.add_1_r, fS, S_INR. pose proof (fpos a). pose proof (pos_INR a). field. repeat split; first [assumption|lra].
Qed.
Ltac fin := repeat rewrite fS; repeat rewrite S_INR; repeat rewrite plus_INR; cbn [fact]; change (INR 1) with 1;
  repeat match goal with |- context [INR (fact ?n)] => lazymatch goal with H : INR (fact n) <> 0 |- _ => fail | _ => pose proof (fpos n) end end.
Lemma tri_volume a b k : (k < 2)%nat -> vol_moment (Simplex 2) [a; b] k (wsum 2 tri_n (tri_moments a b) k).
Proof.
  intros Hk. unfold vol_moment, wsum, half, tri_moments, tri_n. destruct k as [|[|k]]; [| |lia]; cbn [dec nth rsum length Nat.sub pow].
  - vol_simplex 2%nat [pred a; b]. unfold prodfact, total, dir1. cbn [map fold_right]. rewrite !Nat.mul_1_r, !Nat.add_0_r, !mult_INR. destruct a as [|a].
    + change (0 ^ 0) with 1. rewrite !Nat.add_0_l. cbn [INR]. change (INR (fact 0)) with 1. unfold Rdiv. ring.
    + cbn [pred]. rewrite !pow0. replace (S a + b + 1)%nat with (a + b + 2)%nat by lia. rewrite fS, S_INR. unfold Rdiv. field. repeat split; apply fpos.
  - vol_simplex 2%nat [a; pred b]. unfold prodfact, total, dir1. cbn [map fold_right]. rewrite !Nat.mul_1_r, !Nat.add_0_r, !mult_INR. destruct b as [|b].
    + change (0 ^ 0) with 1. rewrite !Nat.add_0_l, !Nat.add_0_r. cbn [INR]. change (INR (fact 0)) with 1. unfold Rdiv. ring.
    + cbn [pred]. rewrite !pow0. replace (a + S b + 1)%nat with (a + b + 2)%nat by lia. rewrite fS, S_INR. unfold Rdiv. field. repeat split; apply fpos.
Qed.
Lemma tet_volume a b c k : (k < 3)%nat -> vol_moment (Simplex 3) [a; b; c] k (wsum 3 tet_n (tet_moments a b c) k).
Proof.
  intros Hk. unfold vol_moment, wsum, half, tet_moments, tet_n. destruct k as [|[|[|k]]]; [| | |lia]; cbn [dec nth rsum length Nat.sub pow].
  - vol_simplex 3%nat [pred a; b; c]. unfold prodfact, total, dir2. cbn [map fold_right]. rewrite !Nat.mul_1_r, !Nat.add_0_r, !mult_INR. destruct a as [|a].
    + change (0 ^ 0) with 1. replace (0 + c + b + 2)%nat with (b + c + 2)%nat by lia. replace (0 + b + c + 2)%nat with (b + c + 2)%nat by lia.
      set (P := INR (fact (0 + b + 0 + 2))). set (Q := INR (fact (0 + 0 + c + 2))). pose proof (fpos (b + c + 2)). pose proof (fpos (pred 0 + (b + c) + 3)). cbn [INR]. change (INR (fact 0)) with 1.
      unfold Rdiv. ring.
    + cbn [pred]. rewrite !pow0. replace (S a + b + c + 2)%nat with (a + (b + c) + 3)%nat by lia. rewrite fS, S_INR. unfold Rdiv. field. repeat split; apply fpos.
  - vol_simplex 3%nat [a; pred b; c]. unfold prodfact, total, dir2. cbn [map fold_right]. rewrite !Nat.mul_1_r, !Nat.add_0_r, !mult_INR. destruct b as [|b].
    + change (0 ^ 0) with 1. replace (0 + a + c + 2)%nat with (a + c + 2)%nat by lia. replace (a + 0 + c + 2)%nat with (a + c + 2)%nat by lia. cbn [INR]. change (INR (fact 0)) with 1. unfold Rdiv. ring.
    + cbn [pred]. rewrite !pow0. replace (a + S b + c + 2)%nat with (a + (b + c) + 3)%nat by lia. rewrite fS, S_INR. unfold Rdiv. field. repeat split; apply fpos.
  - vol_simplex 3%nat [a; b; pred c]. unfold prodfact, total, dir2. cbn [map fold_right]. rewrite !Nat.mul_1_r, !Nat.add_0_r, !mult_INR. destruct c as [|c].
    + change (0 ^ 0) with 1. replace (0 + b + a + 2)%nat with (a + b + 2)%nat by lia. replace (a + b + 0 + 2)%nat with (a + b + 2)%nat by lia. cbn [INR]. change (INR (fact 0)) with 1. unfold Rdiv. ring.
    + cbn [pred]. rewrite !pow0. replace (a + b + S c + 2)%nat with (a + (b + c) + 3)%nat by lia. rewrite fS, S_INR. unfold Rdiv. field. repeat split; apply fpos.
Qed.
Lemma dir1_0 a : dir1 0 a = 2 / (INR a + 1) /\ dir1 a 0 = 2 / (INR a + 1).
Proof.
  unfold dir1. rewrite Nat.add_0_r, Nat.add_0_l, Nat.add_1_r, fS. change (INR (fact 0)) with 1. pose proof (fpos a). pose proof (pos_INR a).
  split; field; repeat split; first [assumption|lra].
Qed.
Lemma der1 a : INR a / 2 * dir1 0 (pred a) = 1 - 0 ^ a.
Proof.
  rewrite (proj1 (dir1_0 _)). destruct a as [|a]; [cbn; field|]. cbn [pred]. rewrite pow0, S_INR. pose proof (pos_INR a). field. lra.
Qed.
Lemma sq_volume a b k : (k < 2)%nat -> vol_moment (cube 2) [a; b] k (wsum 2 sq_n (sq_moments a b) k).
Proof.
  intros Hk. unfold vol_moment, wsum, sq_moments, sq_n. destruct k as [|[|k]]; [| |lia]; cbn [dec nth rsum length Nat.sub pow].
  - eapply is_int_ext; [|eapply int_cast; [apply is_int_scal with (c := INR a / 2), (sq_int 0 (pred a) 0 b)|]].
    + intros x Hx. apply in_square in Hx. destruct Hx as (u & v & -> & _). unfold half. cbn [map monoval nth pow]. ring.
    + rewrite <- Rmult_assoc, der1, !(proj1 (dir1_0 _)), !(proj2 (dir1_0 _)). field. pose proof (pos_INR b). pose proof (pos_INR a). lra.
  - eapply is_int_ext; [|eapply int_cast; [apply is_int_scal with (c := INR b / 2), (sq_int 0 a 0 (pred b))|]].
    + intros x Hx. apply in_square in Hx. destruct Hx as (u & v & -> & _). unfold half. cbn [map monoval nth pow]. ring.
    + rewrite (Rmult_comm (dir1 0 a)), <- Rmult_assoc, der1, !(proj1 (dir1_0 _)), !(proj2 (dir1_0 _)). field. pose proof (pos_INR b). pose proof (pos_INR a). lra.
Qed.
Lemma cube_volume a b c k : (k < 3)%nat -> vol_moment (cube 3) [a; b; c] k (wsum 3 cube_n (cube_moments a b c) k).
Proof.
  intros Hk. unfold vol_moment, wsum, cube_moments, cube_n. destruct k as [|[|[|k]]]; [| | |lia]; cbn [dec nth rsum length Nat.sub pow].
  - eapply is_int_ext; [|eapply int_cast; [apply is_int_scal with (c := INR a / 2), (cube_int (pred a) b c)|]].
    + intros x Hx. apply in_cube3 in Hx. destruct Hx as (u & v & w & -> & _). unfold half. cbn [map monoval nth pow]. ring.
    + rewrite <- Rmult_assoc, der1. field.
  - eapply is_int_ext; [|eapply int_cast; [apply is_int_scal with (c := INR b / 2), (cube_int a (pred b) c)|]].
    + intros x Hx. apply in_cube3 in Hx. destruct Hx as (u & v & w & -> & _). unfold half. cbn [map monoval nth pow]. ring.
    + replace (INR b / 2 * (dir1 0 a * (dir1 0 (pred b) * dir1 0 c))) with (INR b / 2 * dir1 0 (pred b) * (dir1 0 a * dir1 0 c)) by ring. rewrite der1. field.
  - eapply is_int_ext; [|eapply int_cast; [apply is_int_scal with (c := INR c / 2), (cube_int a b (pred c))|]].
    + intros x Hx. apply in_cube3 in Hx. destruct Hx as (u & v & w & -> & _). unfold half. cbn [map monoval nth pow]. ring.
    + replace (INR c / 2 * (dir1 0 a * (dir1 0 b * dir1 0 (pred c)))) with (INR c / 2 * dir1 0 (pred c) * (dir1 0 a * dir1 0 b)) by ring. rewrite der1. field.
Qed.

(** ** All five elements *)
Lemma elements s faces : has_faces s -> faces_for_shape s = Ok faces ->
  exists ns, length ns = length faces /\ (forall i f, nth_error faces i = Some f -> face_normal f false = Ok (nth i ns []))
    /\ forall e, length e = shape_dim s -> exists ms, length ms = length faces
       /\ (forall i f, nth_error faces i = Some f -> face_moment f e (nth i ms 0))
       /\ forall k, (k < shape_dim s)%nat -> vol_moment s e k (wsum (shape_dim s) ns ms k).
Proof.
  intros H E. destruct (has_faces_cases s H) as [-> | [-> | [-> | [-> | ->]]]].
  - rewrite simplex1_faces_ok in E. assert (faces = simplex1_faces) as -> by congruence. exists seg_n. split; [reflexivity|]. split; [exact seg_n_ok|].
    intros e Le. destruct e as [|a [|]]; try discriminate. exists (seg_moments a). split; [reflexivity|]. split; [apply seg_moments_ok|].
    intros k Hk. cbn in Hk. assert (k = 0)%nat as -> by lia. apply seg_volume.
  - rewrite simplex2_faces_ok in E. assert (faces = simplex2_faces) as -> by congruence. exists tri_n. split; [reflexivity|]. split; [exact tri_n_ok|].
    intros e Le. destruct e as [|a [|b [|]]]; try discriminate. exists (tri_moments a b). split; [reflexivity|]. split; [apply tri_moments_ok|]. apply tri_volume.
  - rewrite simplex3_faces_ok in E. assert (faces = simplex3_faces) as -> by congruence. exists tet_n. split; [reflexivity|]. split; [exact tet_n_ok|].
    intros e Le. destruct e as [|a [|b [|c [|]]]]; try discriminate. exists (tet_moments a b c). split; [reflexivity|]. split; [apply tet_moments_ok|]. apply tet_volume.
  - rewrite cube2_faces_ok in E. assert (faces = cube2_faces) as -> by congruence. exists sq_n. split; [reflexivity|]. split; [exact sq_n_ok|].
    intros e Le. destruct e as [|a [|b [|]]]; try discriminate. exists (sq_moments a b). split; [reflexivity|]. split; [apply sq_moments_ok|]. apply sq_volume.
  - rewrite cube3_faces_ok in E. assert (faces = cube3_faces) as -> by congruence. exists cube_n. split; [reflexivity|]. split; [exact cube_n_ok|].
    intros e Le. destruct e as [|a [|b [|c [|]]]]; try discriminate. exists (cube_moments a b c). split; [reflexivity|]. split; [apply cube_moments_ok|]. apply cube_volume.
Qed.

(** ** Linearity *)
Lemma poly_divergence s faces ts : has_faces s -> faces_for_shape s = Ok faces -> Forall (fun t : R * list nat => length (snd t) = shape_dim s) ts ->
  exists ns, length ns = length faces /\ (forall i f, nth_error faces i = Some f -> face_normal f false = Ok (nth i ns []))
    /\ exists J : nat -> R, (forall i f, nth_error faces i = Some f -> is_int (face_shape f) (fun p => polyval ts (half (image f p))) (J i))
      /\ forall k, (k < shape_dim s)%nat ->
           is_int s (fun x => / 2 * polyval (dpoly k ts) (half x)) (rsum (fun i => nth k (nth i ns []) 0 / 2 ^ (shape_dim s - 1) * J i) (length faces)).
Proof.
  intros HF E HT. destruct (elements s faces HF E) as (ns & Ln & Hn & He). exists ns. split; [easy|]. split; [easy|]. induction HT as [|t ts Ht HT IH].
  - exists (fun _ => 0). split.
    + intros i f _. cbn. apply is_int_zero.
    + intros k Hk. eapply is_int_ext; [|eapply int_cast; [apply is_int_zero|]].
      * intros x _. cbn. ring.
      * symmetry. apply rsum_0. intros; ring.
  - destruct IH as (J & HJ & HV). destruct (He (snd t) Ht) as (ms & Lm & Hm & Hvm). exists (fun i => fst t * nth i ms 0 + J i). split.
    + intros i f Hi. eapply is_int_ext; [|apply is_int_plus; [apply is_int_scal, (Hm i f Hi)|exact (HJ i f Hi)]]. intros p _. reflexivity.
    + intros k Hk. eapply is_int_ext; [|eapply int_cast; [apply is_int_plus; [apply is_int_scal with (c := fst t), (Hvm k Hk)|exact (HV k Hk)]|]].
      * intros x _. cbn [dpoly map]. unfold polyval. cbn [fold_right dterm fst snd]. fold (dpoly k ts). field.
      * unfold wsum. rewrite Lm, <- rsum_scal, <- rsum_plus. apply rsum_ext. intros i _. ring.
Qed.

Lemma half_upd x k t : half (upd x k t) = upd (half x) k ((t + 1) / 2).
Proof. revert k. induction x as [|a x IH]; intros [|k]; cbn [upd half map]; try easy. f_equal. apply IH. Qed.
Lemma half_deriv d n ts k x : Forall (fun t : R * list nat => length (snd t) = d /\ (total (snd t) <= n)%nat) ts -> length x = d -> (k < d)%nat ->
  is_derive (fun t => polyval ts (half (upd x k t))) (nth k x 0) (/ 2 * polyval (dpoly k ts) (half x)).
Proof.
  intros HT Hx Hk. assert (T : terms (PN d n) ts). { eapply Forall_impl; [|exact HT]. intros t [A B]. now constructor. }
  assert (L : length (half x) = d) by (unfold half; now rewrite map_length).
  assert (D := polyval_deriv (PN d n) ts k (half x) T L ltac:(lia)).
  assert (N : nth k (half x) 0 = (nth k x 0 + 1) / 2).
  { unfold half. rewrite (nth_indep _ 0 ((0 + 1) / 2)) by (rewrite map_length; lia). apply (map_nth (fun c => (c + 1) / 2)). }
  rewrite N in D. eapply is_derive_ext; [intros t; rewrite half_upd; reflexivity|].
  apply (is_derive_comp (fun y => polyval ts (upd (half x) k y)) (fun t => (t + 1) / 2)); [exact D|].
  auto_derive; [easy|]. field.
Qed.

Lemma has_faces_ok s : has_faces s -> sh_ok s.
Proof.
  intros H. destruct (has_faces_cases s H) as [-> | [-> | [-> | [-> | ->]]]]; try constructor.
  - apply (sh_tp CHypercube [Simplex 1; Simplex 1]). repeat constructor.
  - apply (sh_tp CHypercube [Simplex 1; Simplex 1; Simplex 1]). repeat constructor.
Qed.
Lemma face_sh_ok s f : (exists faces i, has_faces s /\ faces_for_shape s = Ok faces /\ nth_error faces i = Some f) -> sh_ok (face_shape f).
Proof.
  intros (faces & i & H & E & Hi). apply nth_error_In in Hi. destruct (has_faces_cases s H) as [-> | [-> | [-> | [-> | ->]]]].
  - rewrite simplex1_faces_ok in E. assert (faces = simplex1_faces) as -> by congruence. cbn in Hi. intuition (subst f; constructor).
  - rewrite simplex2_faces_ok in E. assert (faces = simplex2_faces) as -> by congruence. cbn in Hi. intuition (subst f; constructor).
  - rewrite simplex3_faces_ok in E. assert (faces = simplex3_faces) as -> by congruence. cbn in Hi. intuition (subst f; constructor).
  - rewrite cube2_faces_ok in E. assert (faces = cube2_faces) as -> by congruence. cbn in Hi. intuition (subst f; constructor).
  - rewrite cube3_faces_ok in E. assert (faces = cube3_faces) as -> by congruence. cbn in Hi.
    intuition (subst f; cbn [face_shape]; apply (sh_tp CHypercube [Simplex 1; Simplex 1]); repeat constructor).
Qed.

(** With unnormalised normals. *)
Lemma divergence s faces F N : has_faces s -> faces_for_shape s = Ok faces -> is_poly (shape_dim s) N F ->
  exists ns, length ns = length faces /\ (forall i f, nth_error faces i = Some f -> face_normal f false = Ok (nth i ns []))
    /\ exists J : nat -> R, (forall i f, nth_error faces i = Some f -> is_int (face_shape f) (fun p => F (image f p)) (J i))
      /\ forall k g, (k < shape_dim s)%nat -> (forall x, length x = shape_dim s -> is_derive (fun t => F (upd x k t)) (nth k x 0) (g x)) ->
           is_int s g (rsum (fun i => nth k (nth i ns []) 0 / 2 ^ (shape_dim s - 1) * J i) (length faces)).
Proof.
  intros HF E HP. destruct (is_poly_half _ _ _ HP) as (ts & HT & HV).
  destruct (poly_divergence s faces ts HF E ltac:(eapply Forall_impl; [|exact HT]; now intros ? [? _])) as (ns & Ln & Hn & J & HJ & HI).
  exists ns. split; [easy|]. split; [easy|]. exists J.
  destruct (C09_faces s HF) as (faces' & E' & _ & HO & _). assert (faces' = faces) by congruence. subst faces'. split.
  - intros i f Hi. eapply is_int_ext; [|exact (HJ i f Hi)]. intros p Hp. symmetry. unfold half. rewrite <- HV; [reflexivity|].
    destruct (HO i f Hi) as (Ev & _ & _ & _ & _ & _ & HB). destruct (HB p Hp) as (x & Ex & Hb). unfold image. rewrite Ex.
    destruct (HO i f Hi) as (_ & _ & _ & HA & _). assert (Lp : length p = shape_dim (face_shape f)) by (apply in_shape_len; [exact (face_sh_ok s f (ex_intro _ faces (ex_intro _ i (conj HF (conj E Hi)))))|easy]).
    destruct (HA p p 0 Lp Lp) as (x' & _ & Ex' & _ & Lx & _). rewrite <- Ev. congruence.
  - intros k g Hk Hg. eapply is_int_ext; [|exact (HI k Hk)]. intros x Hx. apply (in_shape_len s (has_faces_ok s HF)) in Hx. specialize (Hg x Hx).
    assert (D := half_deriv _ _ ts k x HT Hx Hk). apply is_derive_unique in Hg. apply is_derive_unique in D. rewrite <- Hg, <- D.
    apply Derive_ext. intros t. unfold half. symmetry. apply HV. now rewrite upd_length.
Qed.
