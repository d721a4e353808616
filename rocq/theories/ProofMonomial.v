(** * Monomials and their derivatives *)
From Coquelicot Require Import Coquelicot.
From Coq Require Import List Arith Bool ZArith Reals Lra Lia.
From Verif Require Import Py ModelModes RSum IntFacts SpecPoly SpecPartial ProofPKDO ProofTPCall.
Import ListNotations.
Local Open Scope R_scope.

Fixpoint dmono (e : list nat) (j : nat) (x : list R) : R :=
  match e, x with
  | k :: e', t :: x' =>
      match j with
      | O => INR k * t ^ pred k * monoval e' x'
      | S j' => t ^ k * dmono e' j' x'
      end
  | _, _ => 0
  end.

Lemma product_R l : product Rops l = fold_right Rmult 1 l.
Proof.
  unfold product. cbn [Rops vmul vc]. change (fun acc f : R => acc * f) with Rmult.
  rewrite fold_left_Rmult. ring.
Qed.

Lemma monomial_val e x : length e = length x -> monomial Rops e x = Ok (monoval e x).
Proof.
  intros H. unfold monomial. rewrite H, Nat.eqb_refl. cbn [negb]. f_equal. rewrite product_R.
  cbn [Rops vpow]. revert x H. induction e as [|k e IH]; intros [|t x] H; try discriminate; [reflexivity|].
  cbn [combine map fold_right fst snd monoval]. simpl in H. rewrite IH by lia. reflexivity.
Qed.

Lemma monomial_err e x : length e <> length x -> monomial Rops e x = Err AssertionE.
Proof. intros H. unfold monomial. apply Nat.eqb_neq in H. now rewrite H. Qed.

Lemma diff_1d_val r n : diff_monomial_1d Rops r n = INR n * r ^ pred n.
Proof.
  destruct n as [|[|n]]; cbn [diff_monomial_1d Rops vc vmul vadd vpow Nat.sub Nat.pred];
    [simpl; ring|simpl; ring|reflexivity].
Qed.

Lemma axis_product (P : nat -> bool) e x a : length e = length x ->
  fold_right Rmult 1 (map (fun p : nat * (R * nat) =>
      if P (fst p) then diff_monomial_1d Rops (fst (snd p)) (snd (snd p))
      else fst (snd p) ^ snd (snd p)) (combine (seq a (length e)) (combine x e)))
  = if existsb P (seq a (length e)) then
      match filter P (seq a (length e)) with
      | [j] => dmono e (j - a) x
      | _ => fold_right Rmult 1 (map (fun p : nat * (R * nat) =>
      if P (fst p) then diff_monomial_1d Rops (fst (snd p)) (snd (snd p))
      else fst (snd p) ^ snd (snd p)) (combine (seq a (length e)) (combine x e)))
      end
    else monoval e x.
Proof.
  revert x a. induction e as [|k e IH]; intros [|t x] a H; try discriminate; [reflexivity|].
  simpl in H. cbn [length seq combine map fold_right fst snd existsb filter monoval].
  specialize (IH x (S a) ltac:(lia)).
  assert (NE : existsb P (seq (S a) (length e)) = false -> filter P (seq (S a) (length e)) = []).
  { generalize (seq (S a) (length e)). induction l as [|b l IHl]; cbn [existsb filter]; auto.
    destruct (P b); cbn [orb]; [discriminate|auto]. }
  destruct (P a) eqn:Pa; cbn [orb].
  - destruct (existsb P (seq (S a) (length e))) eqn:Ex.
    + assert (exists b l, filter P (seq (S a) (length e)) = b :: l) as (b & l & ->).
      { apply existsb_exists in Ex. destruct Ex as (b & Hb1 & Hb2).
        assert (Hin : In b (filter P (seq (S a) (length e)))) by (now apply filter_In).
        destruct (filter P (seq (S a) (length e))); [easy|eauto]. }
      reflexivity.
    + rewrite (NE eq_refl). rewrite Nat.sub_diag. cbn [dmono]. rewrite IH, diff_1d_val. reflexivity.
  - destruct (existsb P (seq (S a) (length e))) eqn:Ex.
    + destruct (filter P (seq (S a) (length e))) as [|j [|j' l]] eqn:Ef; try reflexivity.
      rewrite IH.
      assert (Hj : In j (filter P (seq (S a) (length e)))) by (rewrite Ef; now left).
      apply filter_In in Hj. destruct Hj as [Hj _]. apply in_seq in Hj.
      replace (j - a)%nat with (S (j - S a)) by lia. reflexivity.
    + now rewrite IH.
Qed.

Lemma filter_none {A} (P : A -> bool) l : (forall b, In b l -> P b = false) -> filter P l = [].
Proof.
  induction l as [|b l IH]; intros H; cbn [filter]; auto. rewrite (H b) by now left.
  apply IH. intros; apply H; now right.
Qed.

Lemma filter_eqb j a n : (a <= j < a + n)%nat -> filter (fun i => (j =? i)%nat) (seq a n) = [j].
Proof.
  revert a. induction n as [|n IH]; intros a H; [lia|]. cbn [seq filter].
  destruct (Nat.eqb_spec j a) as [->|Hne].
  - f_equal. apply filter_none. intros b Hb. apply in_seq in Hb. apply Nat.eqb_neq. lia.
  - apply IH. lia.
Qed.

Lemma axis_product_at (P : nat -> bool) e x j : length e = length x -> (j < length e)%nat ->
  (forall i, P i = (j =? i)%nat) ->
  fold_right Rmult 1 (map (fun p : nat * (R * nat) =>
      if P (fst p) then diff_monomial_1d Rops (fst (snd p)) (snd (snd p))
      else fst (snd p) ^ snd (snd p)) (combine (seq 0 (length e)) (combine x e)))
  = dmono e j x.
Proof.
  intros H Hj HP. rewrite axis_product by easy.
  rewrite (filter_ext P (fun i => (j =? i)%nat) HP), (filter_eqb j 0 (length e)) by lia.
  assert (E : existsb P (seq 0 (length e)) = true).
  { apply existsb_exists. exists j. split; [apply in_seq; lia|]. rewrite HP. apply Nat.eqb_refl. }
  rewrite E. f_equal. lia.
Qed.

Lemma diff_monomial_val e j x : length e = length x -> (j < length e)%nat ->
  diff_monomial Rops e (Z.of_nat j) x = Ok (dmono e j x).
Proof.
  intros H Hj. unfold diff_monomial. rewrite H, Nat.eqb_refl. cbn [negb]. f_equal. rewrite product_R.
  rewrite <- H. cbn [Rops vpow].
  apply (axis_product_at (fun i => (Z.of_nat j =? Z.of_nat i)%Z)); auto.
  intros i. destruct (Nat.eqb_spec j i) as [->|Hne]; [apply Z.eqb_refl|apply Z.eqb_neq; lia].
Qed.

Lemma grad_monomial_val e x : length e = length x ->
  grad_monomial Rops e x = Ok (map (fun j => dmono e j x) (seq 0 (length e))).
Proof.
  intros H. unfold grad_monomial. rewrite H, Nat.eqb_refl. cbn [negb]. f_equal. rewrite <- H.
  apply map_ext_in. intros j Hj. apply in_seq in Hj. rewrite product_R. cbn [Rops vpow].
  apply (axis_product_at (fun i => (j =? i)%nat)); auto. lia.
Qed.

Lemma monoval_deriv e x j : length e = length x -> (j < length x)%nat ->
  is_derive (fun t => monoval e (upd x j t)) (nth j x 0) (dmono e j x).
Proof.
  revert x j. induction e as [|k e IH]; intros [|a x] j H Hj; simpl in H, Hj; try lia.
  destruct j as [|j]; cbn [upd monoval nth dmono].
  - eapply isD_eq.
    + apply isD_mult; [|apply @is_derive_const].
      apply (is_derive_pow_c (fun t => t) a 1 k). apply @is_derive_id.
    + change zero with 0. cbv beta. req. ring.
  - apply (is_derive_scal (fun t => monoval e (upd x j t))). apply IH; lia.
Qed.

Lemma nth_map_seq (f : nat -> R) n j : (j < n)%nat -> nth j (map f (seq 0 n)) 0 = f j.
Proof.
  intros H. rewrite (nth_indep _ 0 (f 0%nat)) by (rewrite map_length, seq_length; easy).
  rewrite (map_nth f), seq_nth by easy. reflexivity.
Qed.
