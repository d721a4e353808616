(** * Symmetry of the monomial space and of equispaced nodes under exchange of axes *)
From Coquelicot Require Import Coquelicot.
From Coq Require Import List Arith Bool ZArith Reals Lra Lia Permutation.
From Verif Require Import Py PyToolsModel RSum ModelShapes ModelModes ModelBasis EnumFacts SpecPoly SpecPartial SpecSpan
  ProofMonomial ModelMatrices ProofMatrices ProofMatrices2 ProofDiffPerm ProofMatrices3.
Import ListNotations.
Local Open Scope R_scope.

Lemma exch_perm_idx k n : (k < n)%nat -> Permutation (map (exch_idx k) (seq 0 n)) (seq 0 n).
Proof.
  intros H. apply NoDup_Permutation_bis.
  - apply FinFun.Injective_map_NoDup; [|apply seq_NoDup].
    intros a b E. rewrite <- (exch_idx_inv k a), <- (exch_idx_inv k b). now rewrite E.
  - rewrite map_length. lia.
  - intros i Hi. apply in_map_iff in Hi. destruct Hi as (j & <- & Hj). apply in_seq in Hj.
    apply in_seq. split; [lia|]. cbn. apply exch_idx_lt; lia.
Qed.
Lemma list_as_map {A} (d : A) l : l = map (fun i => nth i l d) (seq 0 (length l)).
Proof.
  apply (nth_ext _ _ d d); [now rewrite map_length, seq_length|]. intros i Hi.
  rewrite (nth_indep (map _ _) d (nth 0 l d)) by (now rewrite map_length, seq_length).
  rewrite (map_nth (fun i => nth i l d)), seq_nth by easy. reflexivity.
Qed.
Lemma exch_perm {A} (d : A) k l : (k < length l)%nat -> Permutation (exch d k l) l.
Proof.
  intros H. unfold exch. rewrite <- (map_map (exch_idx k) (fun i => nth i l d)).
  apply (Permutation_trans (l' := map (fun i => nth i l d) (seq 0 (length l))));
    [|rewrite <- (list_as_map d l); apply Permutation_refl]. apply Permutation_map. now apply exch_perm_idx.
Qed.
Lemma sum_nat_perm l l' : Permutation l l' -> sum_nat l = sum_nat l'.
Proof. unfold sum_nat. induction 1; cbn; lia. Qed.

Lemma fold_Rmult_perm l l' : Permutation l l' -> fold_right Rmult 1 l = fold_right Rmult 1 l'.
Proof. induction 1; cbn [fold_right]; [easy|now rewrite IHPermutation|ring|congruence]. Qed.
Lemma monoval_prod e x : length e = length x ->
  monoval e x = fold_right Rmult 1 (map (fun i => nth i x 0 ^ nth i e 0%nat) (seq 0 (length x))).
Proof.
  revert x. induction e as [|a e IH]; intros [|t x] H; try discriminate; [reflexivity|].
  cbn [monoval length seq map fold_right nth]. rewrite IH by (cbn in H; lia). f_equal.
  rewrite <- seq_shift, map_map. reflexivity.
Qed.
Lemma monoval_exch e x k : length e = length x -> (k < length x)%nat ->
  monoval e (exch 0 k x) = monoval (exch 0%nat k e) x.
Proof.
  intros H Hk. rewrite monoval_prod by (now rewrite exch_length). rewrite monoval_prod by (now rewrite exch_length).
  rewrite exch_length.
  transitivity (fold_right Rmult 1 (map (fun i => nth i x 0 ^ nth (exch_idx k i) e 0%nat) (map (exch_idx k) (seq 0 (length x))))).
  - rewrite map_map. f_equal. apply map_ext_in. intros i Hi. apply in_seq in Hi.
    rewrite exch_nth by lia. now rewrite exch_idx_inv.
  - transitivity (fold_right Rmult 1 (map (fun i => nth i x 0 ^ nth (exch_idx k i) e 0%nat) (seq 0 (length x)))).
    + apply fold_Rmult_perm, Permutation_map. now apply exch_perm_idx.
    + f_equal. apply map_ext_in. intros i Hi. apply in_seq in Hi. rewrite exch_nth by lia. reflexivity.
Qed.

Lemma gnitsam_exch d n k t : (k < d)%nat -> In t (gnitsam n d) -> In (exch 0%nat k t) (gnitsam n d).
Proof.
  intros Hk Ht. apply gnitsam_in in Ht. destruct Ht as [L S]. apply gnitsam_in. rewrite exch_length. split; [easy|].
  rewrite (sum_nat_perm _ t); [easy|]. apply exch_perm. lia.
Qed.
Lemma gnitsam_lengths n d : Forall (fun t => length t = d) (gnitsam n d).
Proof. apply Forall_forall. intros t Ht. now apply gnitsam_in in Ht. Qed.

Lemma mono_lin d n c x : length x = d ->
  lin (map (monomial Rops) (gnitsam n d)) c x
  = rsum (fun j => c j * monoval (nth j (gnitsam n d) []) x) (length (gnitsam n d)).
Proof.
  intros Hx. unfold lin. rewrite map_length. apply rsum_ext. intros j Hj. f_equal. unfold fn, valR.
  rewrite (nth_indep _ (fun _ => Err IndexError) (monomial Rops [])) by (now rewrite map_length).
  rewrite map_nth. rewrite monomial_val; [reflexivity|].
  assert (Hin : In (nth j (gnitsam n d) []) (gnitsam n d)) by (now apply nth_In).
  apply gnitsam_in in Hin. lia.
Qed.
Lemma monomial_span_exch d n k c : (k < d)%nat -> exists c', forall x, length x = d ->
  lin (map (monomial Rops) (gnitsam n d)) c (exch 0 k x) = lin (map (monomial Rops) (gnitsam n d)) c' x.
Proof.
  intros Hk.
  destruct (perm_ok (gnitsam n d) k d Hk (gnitsam_lengths n d) (gnitsam_NoDup d n)) as (perm & _ & L & HP & PP).
  { intros t Ht. now apply gnitsam_exch. }
  exists (fun j => c (nth j perm 0%nat)). intros x Hx.
  rewrite !mono_lin by (rewrite ?exch_length; easy).
  set (N := length (gnitsam n d)) in *.
  rewrite (rsum_ext _ (fun j => c j * monoval (nth (nth j perm 0%nat) (gnitsam n d) []) x)).
  2:{ intros j Hj. destruct (HP j Hj) as (_ & E & _). rewrite E, monoval_exch; [reflexivity| |lia].
      assert (Hin : In (nth j (gnitsam n d) []) (gnitsam n d)) by (now apply nth_In).
      apply gnitsam_in in Hin. lia. }
  rewrite <- (rsum_reindex perm (fun j => c j * monoval (nth (nth j perm 0%nat) (gnitsam n d) []) x) N L PP).
  apply rsum_ext. intros j Hj. destruct (HP j Hj) as (_ & _ & E). now rewrite E.
Qed.

Lemma exch_map {A B} (f : A -> B) (a : A) (b : B) k l : (k < length l)%nat ->
  exch b k (map f l) = map f (exch a k l).
Proof.
  intros H. unfold exch. rewrite map_length, map_map. apply map_ext_in. intros i Hi. apply in_seq in Hi.
  rewrite (nth_indep _ b (f a)) by (rewrite map_length; apply exch_idx_lt; lia). apply map_nth.
Qed.
