(** * The eigenvalue helpers of kronrod.py *)
From Coquelicot Require Import Coquelicot.
From Coq Require Import List Arith Bool Reals Lra Lia Permutation Sorted.
From Verif Require Import Py RSum ModelNd ModelShapes ModelNodes ModelModes ModelQuad ModelGauss ModelKronrod.
From Verif Require Import ProofGauss ProofGauss2.
Import ListNotations.
Local Open Scope R_scope.

(** ** The matrix *)
Lemma eig_matrix_tri b m i j : (i < m)%nat -> (j < m)%nat -> eig_matrix b m i j = tri b (fun _ => 0) i j.
Proof.
  intros Hi Hj. unfold eig_matrix.
  assert (P : forall k, (k <= m - 1)%nat -> forall i j,
    fold_left (fun h i => mset (mset h i (i - 1) (b (i - 1)%nat)) (i - 1) i (b (i - 1)%nat)) (seq 1 k) (fun _ _ => 0) i j
    = if ((j =? S i) && (i <? k))%nat then b i else if ((i =? S j) && (j <? k))%nat then b j else 0).
  { induction k as [|k IH]; intros Hk i' j'.
    - cbn [seq fold_left]. destruct (Nat.ltb_spec i' 0); [lia|]. destruct (Nat.ltb_spec j' 0); [lia|]. now rewrite !andb_false_r.
    - rewrite seq_S, fold_left_app. cbn [fold_left]. set (h := fold_left _ _ _) in *. specialize (IH ltac:(lia)).
      change (1 + k)%nat with (S k). replace (S k - 1)%nat with k by lia. unfold mset.
      repeat match goal with
        | |- context [if ((?a =? ?b) && (?c =? ?d))%nat then _ else _] => destruct (Nat.eqb_spec a b); destruct (Nat.eqb_spec c d); cbn [andb]
        end; try rewrite IH;
      repeat match goal with
        | |- context [(?a =? ?b)%nat] => destruct (Nat.eqb_spec a b)
        | |- context [(?a <? ?b)%nat] => destruct (Nat.ltb_spec a b)
        end; cbn [andb]; try lia; try reflexivity; f_equal; lia. }
  rewrite P by lia. unfold tri.
  destruct (Nat.eqb_spec j i); destruct (Nat.eqb_spec j (S i)); destruct (Nat.eqb_spec i (S j)); try lia; cbn [andb]; try reflexivity;
    [destruct (Nat.ltb_spec i (m - 1)); [easy|lia]|destruct (Nat.ltb_spec j (m - 1)); [easy|lia]].
Qed.

(** ** The characteristic polynomials of the leading blocks *)
Fixpoint dpair (b : nat -> R) (z : R) (k : nat) : R * R :=
  match k with O => (1, z) | S j => let '(d2, d1) := dpair b z j in (d1, z * d1 - b j ^ 2 * d2) end.
Definition dpol (b : nat -> R) (k : nat) (z : R) : R := fst (dpair b z k).
Lemma dpol_0 b z : dpol b 0 z = 1. Proof. reflexivity. Qed.
Lemma dpol_1 b z : dpol b 1 z = z. Proof. reflexivity. Qed.
Lemma dpol_SS b k z : dpol b (S (S k)) z = z * dpol b (S k) z - b k ^ 2 * dpol b k z.
Proof. unfold dpol. cbn [dpair]. destruct (dpair b z k) as [d2 d1]. reflexivity. Qed.
Lemma eigpoly_dpol b z m : (1 <= m)%nat -> fst (eigpoly b z m) = dpol b m z /\ is_derive (dpol b m) z (snd (eigpoly b z m)).
Proof.
  intros Hm. unfold eigpoly.
  assert (P : forall k, let '(d1, d1d, d2, d2d) := fold_left (eigpoly_step b z) (seq 2 k) (z, 1, 1, 0) in
     d1 = dpol b (S k) z /\ d2 = dpol b k z /\ is_derive (dpol b (S k)) z d1d /\ is_derive (dpol b k) z d2d).
  { induction k as [|k IH].
    - cbn [seq fold_left]. split; [reflexivity|]. split; [reflexivity|]. split.
      + apply (is_derive_ext (fun x => x)); [intros; now rewrite dpol_1|]. apply @is_derive_id.
      + apply (is_derive_ext (fun x => 1)); [intros; now rewrite dpol_0|]. apply @is_derive_const.
    - rewrite seq_S, fold_left_app. cbn [fold_left]. destruct (fold_left _ _ _) as [[[d1 d1d] d2] d2d]. destruct IH as (-> & -> & H1 & H2).
      unfold eigpoly_step. change (2 + k)%nat with (S (S k)). replace (S (S k) - 2)%nat with k by lia. split; [now rewrite dpol_SS|]. split; [reflexivity|]. split.
      + apply (is_derive_ext (fun x => x * dpol b (S k) x - b k ^ 2 * dpol b k x)); [intros; now rewrite dpol_SS|].
        evar_last; [apply @is_derive_minus; [apply Derive.is_derive_mult; [apply @is_derive_id|exact H1]|apply is_derive_scal; exact H2]|].
        unfold minus, plus, opp, one; cbn. change Hierarchy.plus with Rplus. ring.
      + exact H1. }
  specialize (P (m - 1)%nat). destruct (fold_left _ _ _) as [[[d1 d1d] d2] d2d]. destruct P as (-> & _ & H & _). cbn [fst snd].
  replace (S (m - 1)) with m in * by lia. now split.
Qed.

(** ** The vectors before normalisation *)
Fixpoint vpair (b : nat -> R) (z : R) (i : nat) : R * R :=
  match i with O => (1, z / b 0%nat) | S j => let '(u, v) := vpair b z j in (v, (z * v - b j * u) / b (S j)) end.
Definition vp (b : nat -> R) (i : nat) (z : R) : R := fst (vpair b z i).
Lemma vp_0 b z : vp b 0 z = 1. Proof. reflexivity. Qed.
Lemma vp_1 b z : vp b 1 z = z / b 0%nat. Proof. reflexivity. Qed.
Lemma vp_SS b i z : vp b (S (S i)) z = (z * vp b (S i) z - b i * vp b i z) / b (S i).
Proof. unfold vp. cbn [vpair]. destruct (vpair b z i) as [u v]. reflexivity. Qed.
Definition vnorm (b : nat -> R) (m : nat) (z : R) : R := rsum (fun i => vp b i z * vp b i z) m.
Lemma vnorm_ge1 b m z : (1 <= m)%nat -> 1 <= vnorm b m z.
Proof.
  intros Hm. unfold vnorm. destruct m as [|m]; [lia|]. rewrite rsum_shift, vp_0.
  assert (0 <= rsum (fun k => vp b (S k) z * vp b (S k) z) m) by (apply rsum_nonneg; intros; nra). lra.
Qed.
Lemma eigvec1_vp b z m i : (1 <= m)%nat -> (i < m)%nat -> eigvec1 b z m i = vp b i z / sqrt (vnorm b m z).
Proof.
  intros Hm Hi. unfold eigvec1. destruct (Nat.ltb_spec 1 m) as [H1|H1].
  2:{ assert (m = 1%nat) as -> by lia. assert (i = 0%nat) as -> by lia. unfold vnorm. cbn [rsum]. rewrite vp_0. replace (0 + 1 * 1) with 1 by ring. rewrite sqrt_1. unfold upd. cbn. field. }
  assert (P : forall k, let '(v, s) := fold_left (eigvec1_step b z) (seq 2 k) (upd (upd (fun _ => 0) 0 1) 1 (z * upd (fun _ => 0) 0 1 0%nat / b 0%nat), upd (fun _ => 0) 0 1 0%nat ^ 2 + upd (upd (fun _ => 0) 0 1) 1 (z * upd (fun _ => 0) 0 1 0%nat / b 0%nat) 1%nat ^ 2) in
    (forall i, (i < 2 + k)%nat -> v i = vp b i z) /\ s = vnorm b (2 + k) z).
  { induction k as [|k IH].
    - cbn [seq fold_left]. split.
      + intros i' Hi'. destruct i' as [|[|i']]; [| |lia]; unfold upd; cbn [Nat.eqb]; [reflexivity|]. rewrite vp_1. unfold Rdiv. ring.
      + unfold upd, vnorm. cbn [Nat.eqb rsum Nat.add]. rewrite vp_0, vp_1. unfold Rdiv. ring.
    - rewrite seq_S, fold_left_app. cbn [fold_left]. destruct (fold_left _ _ _) as [v s]. destruct IH as (I1 & ->).
      unfold eigvec1_step. change (2 + k)%nat with (S (S k)). replace (S (S k) - 2)%nat with k by lia. replace (S (S k) - 1)%nat with (S k) by lia.
      assert (E : - (b k * v k - z * v (S k)) / b (S k) = vp b (S (S k)) z). { rewrite vp_SS, !I1 by lia. unfold Rdiv. ring. }
      rewrite E. split.
      + intros i' Hi'. unfold upd. destruct (Nat.eqb_spec i' (S (S k))) as [->|]; [easy|]. apply I1. lia.
      + unfold upd. rewrite Nat.eqb_refl. unfold vnorm. replace (2 + S k)%nat with (S (S (S k))) by lia. rewrite (rsum_S _ (S (S k))). ring. }
  specialize (P (m - 2)%nat). destruct (fold_left _ _ _) as [v s]. destruct P as (H & ->). rewrite H by lia. do 3 f_equal. lia.
Qed.
Lemma vp_row b m z i : (S i < m)%nat -> (forall k, (k < m - 1)%nat -> b k <> 0) ->
  rsum (fun j => tri b (fun _ => 0) i j * vp b j z) m = z * vp b i z.
Proof.
  intros Hi Hb. destruct m as [|N]; [lia|]. rewrite tri_row by lia. destruct (Nat.ltb_spec i N); [|lia].
  assert (b i <> 0) by (apply Hb; lia). destruct i as [|i]; [rewrite vp_0, vp_1; field; easy|]. rewrite vp_SS. field. easy.
Qed.
Lemma vp_dpol b z : forall i, (forall k, (k < i)%nat -> b k <> 0) -> vp b i z * fold_right Rmult 1 (map b (seq 0 i)) = dpol b i z.
Proof.
  assert (PR : forall i, fold_right Rmult 1 (map b (seq 0 (S i))) = fold_right Rmult 1 (map b (seq 0 i)) * b i).
  { intros i. rewrite seq_S, map_app. cbn [map Nat.add]. assert (Q : forall l x, fold_right Rmult 1 (l ++ [x]) = fold_right Rmult 1 l * x) by (induction l as [|y l IH]; intros x; cbn [app fold_right]; [ring|rewrite IH; ring]). apply Q. }
  assert (P : forall i, (forall k, (k < S i)%nat -> b k <> 0) -> vp b i z * fold_right Rmult 1 (map b (seq 0 i)) = dpol b i z /\ vp b (S i) z * fold_right Rmult 1 (map b (seq 0 (S i))) = dpol b (S i) z).
  { induction i as [|i IH]; intros Hb.
    - specialize (Hb 0%nat ltac:(lia)). cbn [seq map fold_right]. rewrite vp_0, vp_1, dpol_0, dpol_1. split; [ring|field; easy].
    - destruct IH as [I1 I2]; [intros; apply Hb; lia|]. split; [easy|]. rewrite dpol_SS, <- I1, <- I2, vp_SS, !PR. field. apply Hb. lia. }
  intros i Hb. destruct i as [|i]; [rewrite vp_0, dpol_0; cbn; ring|]. now apply P.
Qed.
Lemma prod_ne (b : nat -> R) i : (forall k, (k < i)%nat -> b k <> 0) -> fold_right Rmult 1 (map b (seq 0 i)) <> 0.
Proof.
  intros H. assert (Q : forall l, (forall k, In k l -> b k <> 0) -> fold_right Rmult 1 (map b l) <> 0).
  { induction l as [|k l IH]; intros Hl; cbn [map fold_right]; [lra|]. apply Rmult_integral_contrapositive_currified; [apply Hl; now left|apply IH; intros; apply Hl; now right]. }
  apply Q. intros k Hk. apply in_seq in Hk. apply H. lia.
Qed.
(** The last row is satisfied iff [z] is a root of the characteristic polynomial. *)
Lemma vp_last b N z : (forall k, (k < N)%nat -> b k <> 0) ->
  rsum (fun j => tri b (fun _ => 0) N j * vp b j z) (S N) = z * vp b N z <-> dpol b (S N) z = 0.
Proof.
  intros Hb. rewrite tri_row by lia. destruct (Nat.ltb_spec N N); [lia|]. pose proof (prod_ne b N Hb) as NE.
  destruct N as [|N]; [rewrite vp_0, dpol_1; split; intros; lra|].
  assert (Q : dpol b (S (S N)) z = (z * vp b (S N) z - b N * vp b N z) * fold_right Rmult 1 (map b (seq 0 (S N)))).
  { rewrite dpol_SS, <- (vp_dpol b z N), <- (vp_dpol b z (S N)) by (intros; apply Hb; lia).
    rewrite seq_S, map_app. cbn [map Nat.add]. assert (Q : forall l x, fold_right Rmult 1 (l ++ [x]) = fold_right Rmult 1 l * x) by (induction l as [|y l IH]; intros x; cbn [app fold_right]; [ring|rewrite IH; ring]). rewrite Q. ring. }
  rewrite Q. split.
  - intros H1. replace (z * vp b (S N) z - b N * vp b N z) with 0 by lra. ring.
  - intros H1. apply Rmult_integral in H1. destruct H1; [lra|contradiction].
Qed.

(** ** Newton leaves exact roots alone *)
Lemma newton_root b m k lam : (1 <= m)%nat -> dpol b m lam = 0 -> newton b m k lam = lam.
Proof.
  intros Hm H0. destruct (eigpoly_dpol b lam m Hm) as [E _]. induction k as [|k IH]; [reflexivity|]. cbn [newton].
  destruct (eigpoly b lam m) as [q pd]. cbn [fst] in E. rewrite E, H0. destruct (Req_bool pd 0); [reflexivity|].
  replace (lam - 0 / pd) with lam by (unfold Rdiv; ring). destruct (Rlt_bool _ _); [reflexivity|exact IH].
Qed.
Lemma newton_last_root b m lam : (1 <= m)%nat -> dpol b m lam = 0 -> newton_last b m lam = lam.
Proof.
  intros Hm H0. destruct (eigpoly_dpol b lam m Hm) as [E _]. unfold newton_last.
  destruct (eigpoly b lam m) as [q pd]. cbn [fst] in E. rewrite E, H0. destruct (Req_bool pd 0); [reflexivity|]. unfold Rdiv. ring.
Qed.

(** ** Sorting *)
Lemma np_insert_perm x l : Permutation (np_insert x l) (x :: l).
Proof.
  induction l as [|y l IH]; cbn [np_insert]; [reflexivity|]. destruct (Rle_dec x y); [reflexivity|]. rewrite IH. apply perm_swap.
Qed.
Lemma np_sort_perm l : Permutation (np_sort l) l.
Proof. induction l as [|x l IH]; cbn; [reflexivity|]. fold (np_sort l). rewrite np_insert_perm. now constructor. Qed.
Lemma np_insert_sorted x l : StronglySorted Rle l -> StronglySorted Rle (np_insert x l).
Proof.
  induction 1 as [|y l S IH F]; cbn [np_insert]; [repeat constructor|]. destruct (Rle_dec x y).
  - constructor; [now constructor|]. constructor; [easy|]. eapply Forall_impl; [|exact F]. intros; cbn in *; lra.
  - constructor; [exact IH|]. apply (Permutation_Forall (Permutation_sym (np_insert_perm x l))). constructor; [lra|easy].
Qed.
Lemma np_sort_sorted l : StronglySorted Rle (np_sort l).
Proof. induction l as [|x l IH]; cbn; [constructor|]. now apply np_insert_sorted. Qed.
