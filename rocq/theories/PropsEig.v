(** * C54: the eigenvalue helpers of the Gauss and Kronrod rules *)
From Coquelicot Require Import Coquelicot.
From Coq Require Import List Arith Bool ZArith QArith Reals Lra Lia Permutation Sorted.
From Verif Require Import Py RSum ModelNd ModelShapes ModelNodes ModelModes ModelQuad ModelGauss ModelKronrod.
From Verif Require Import ProofGauss ProofGauss2 ProofEig ProofEigDet.
Import ListNotations.
Local Open Scope R_scope.
Local Open Scope nat_scope.
Local Open Scope R_scope.

(** The matrix that the code builds from the off-diagonal entries [b]. *)
Theorem C54_matrix b m i j : (i < m)%nat -> (j < m)%nat ->
  eig_matrix b m i j = if (j =? S i)%nat then b i else if (i =? S j)%nat then b j else 0.
Proof.
  intros Hi Hj. rewrite eig_matrix_tri by easy. unfold tri. destruct (Nat.eqb_spec j i); [|easy]. subst.
  destruct (Nat.eqb_spec i (S i)); [lia|easy].
Qed.
Lemma dpol_ndet b z : forall k, dpol b k z = ndet k (fun i j => (if (i =? j)%nat then z else 0) - tri b (fun _ => 0) i j).
Proof.
  set (M := fun i j => (if (i =? j)%nat then z else 0) - tri b (fun _ => 0) i j).
  assert (T : forall i j, (S i < j)%nat \/ (S j < i)%nat -> M i j = 0).
  { intros i j H. unfold M, tri. destruct (Nat.eqb_spec i j); destruct (Nat.eqb_spec j i); destruct (Nat.eqb_spec j (S i)); destruct (Nat.eqb_spec i (S j)); try lia. ring. }
  assert (P : forall k, dpol b k z = ndet k M /\ dpol b (S k) z = ndet (S k) M).
  { induction k as [|k [I1 I2]].
    - rewrite ndet_0, ndet_1, dpol_0, dpol_1. split; [easy|]. unfold M, tri. cbn [Nat.eqb]. ring.
    - split; [easy|]. rewrite (@ndet_rec k M T), dpol_SS, I1, I2.
      set (x1 := ndet (S k) M). set (x0 := ndet k M). unfold M, tri. rewrite !Nat.eqb_refl.
      destruct (Nat.eqb_spec k (S k)); [lia|]. destruct (Nat.eqb_spec (S k) k); [lia|]. destruct (Nat.eqb_spec k (S (S k))); [lia|]. ring. }
  intros k. apply P.
Qed.
(** The recurrence evaluates det(z I - H) for every leading block, and its derivative. *)
Theorem C54_charpoly b m k z : (1 <= k <= m)%nat ->
  let M := fun z i j => (if (i =? j)%nat then z else 0) - eig_matrix b m i j in
  let '(p, dp) := eigpoly b z k in
  p = ndet k (M z) /\ is_derive (fun z => ndet k (M z)) z dp.
Proof.
  intros Hk M. destruct (eigpoly_dpol b z k ltac:(lia)) as [E D]. destruct (eigpoly b z k) as [p dp]. cbn [fst snd] in *.
  assert (Q : forall t, dpol b k t = ndet k (M t)).
  { intros t. rewrite dpol_ndet. apply ndet_ext. intros i j Hi Hj. unfold M. rewrite eig_matrix_tri by lia. reflexivity. }
  split; [now rewrite E|]. eapply is_derive_ext; [exact Q|exact D].
Qed.
(** The vector has unit norm, a positive first entry, and is annihilated by all rows of
    H - z I but the last; by the last one as well exactly for eigenvalues z. *)
Theorem C54_vector b m z : (1 <= m)%nat -> (forall k, (k < m - 1)%nat -> b k <> 0) ->
  let v := eigvec1 b z m in
  rsum (fun i => v i ^ 2) m = 1 /\ 0 < v 0%nat
  /\ (forall i, (S i < m)%nat -> rsum (fun j => eig_matrix b m i j * v j) m - z * v i = 0)
  /\ (rsum (fun j => eig_matrix b m (m - 1) j * v j) m - z * v (m - 1)%nat = 0
      <-> ndet m (fun i j => (if (i =? j)%nat then z else 0) - eig_matrix b m i j) = 0).
Proof.
  intros Hm Hb v. pose proof (vnorm_ge1 b m z Hm) as N1. assert (SP : 0 < sqrt (vnorm b m z)) by (apply sqrt_lt_R0; lra).
  assert (V : forall i, (i < m)%nat -> v i = vp b i z / sqrt (vnorm b m z)) by (intros; now apply eigvec1_vp).
  assert (ROW : forall i, (i < m)%nat -> rsum (fun j => eig_matrix b m i j * v j) m = rsum (fun j => tri b (fun _ => 0) i j * vp b j z) m / sqrt (vnorm b m z)).
  { intros i Hi. unfold Rdiv. rewrite <- rsum_scal_r. apply rsum_ext. intros j Hj. rewrite V, eig_matrix_tri by easy. unfold Rdiv. ring. }
  split; [|split; [|split]].
  - rewrite (rsum_ext _ (fun i => vp b i z * vp b i z * / vnorm b m z)).
    + rewrite rsum_scal_r. fold (vnorm b m z). field. lra.
    + intros i Hi. rewrite V by easy. replace (vnorm b m z) with (sqrt (vnorm b m z) * sqrt (vnorm b m z)) at 2 by (apply sqrt_sqrt; lra). field. lra.
  - rewrite V by lia. rewrite vp_0. apply Rdiv_lt_0_compat; lra.
  - intros i Hi. rewrite ROW, V, vp_row by (easy || lia). field. lra.
  - rewrite ROW, V by lia.
    assert (Q : ndet m (fun i j => (if (i =? j)%nat then z else 0) - eig_matrix b m i j) = dpol b m z).
    { rewrite dpol_ndet. apply ndet_ext. intros i j Hi Hj. now rewrite eig_matrix_tri. }
    rewrite Q. destruct m as [|N]; [lia|]. replace (S N - 1)%nat with N in * by lia. rewrite <- (vp_last b N z Hb). split.
    + intros H. apply (f_equal (fun t => t * sqrt (vnorm b (S N) z))) in H. field_simplify in H; lra.
    + intros ->. field. lra.
Qed.
(** Newton steps do not move an exact eigenvalue. *)
Theorem C54_newton b m k z : (1 <= m)%nat -> ndet m (fun i j => (if (i =? j)%nat then z else 0) - eig_matrix b m i j) = 0 ->
  newton_last b m (newton b m k z) = z.
Proof.
  intros Hm H. assert (Q : dpol b m z = 0).
  { rewrite dpol_ndet. refine (eq_trans _ H). apply ndet_ext. intros i j Hi Hj. now rewrite eig_matrix_tri. }
  rewrite (newton_root b m k z Hm Q). exact (newton_last_root b m z Hm Q).
Qed.

(** A 3 x 3 case: b = (1, 2), z = 3: z^3 - (1 + 4) z and 3 z^2 - 5 *)
Example C54_charpoly_ex : eigpoly (fun i => INR i + 1) 3 3 = (12, 22).
Proof. unfold eigpoly. cbn [seq fold_left eigpoly_step Nat.sub INR]. f_equal; ring. Qed.
Example C54_vector_ex : forall k, (k < 3 - 1)%nat -> INR k + 1 <> 0.
Proof. intros k _. pose proof (pos_INR k). lra. Qed.
(** z = 0 is an eigenvalue of every such 3 x 3 matrix. *)
Example C54_newton_ex : ndet 3 (fun i j => (if (i =? j)%nat then 0 else 0) - eig_matrix (fun i => INR i + 1) 3 i j) = 0.
Proof.
  refine (eq_trans (@ndet_ext 3 _ (fun i j => (if (i =? j)%nat then 0 else 0) - tri (fun i => INR i + 1) (fun _ => 0) i j) _) _).
  - intros i j Hi Hj. now rewrite eig_matrix_tri.
  - rewrite <- (dpol_ndet (fun i => INR i + 1) 0 3). rewrite dpol_SS, dpol_SS, dpol_1. ring.
Qed.

Print Assumptions C54_matrix.
Print Assumptions C54_charpoly.
Print Assumptions C54_vector.
Print Assumptions C54_newton.
