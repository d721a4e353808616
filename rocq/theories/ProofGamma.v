(** * Facts about [gamma] (Gauss limit): existence of the limit, positivity,
      functional equation, values at the positive integers. *)
From Coq Require Import List Arith Bool ZArith Reals Lia Lra.
From Coquelicot Require Import Coquelicot.
From Verif Require Import Py ModelModes.
Import ListNotations.
Local Open Scope R_scope.

Lemma INR_unbounded (x : R) : exists n : nat, x < INR n.
Proof.
  destruct (archimed (Rmax x 0)) as [H _].
  exists (Z.to_nat (up (Rmax x 0))).
  rewrite INR_IZR_INZ, Z2Nat.id.
  - generalize (Rmax_l x 0); lra.
  - apply le_IZR. generalize (Rmax_r x 0); lra.
Qed.

(** x (x+1) ... (x+n) *)
Fixpoint rise (x : R) (n : nat) : R :=
  match n with O => x | S m => rise x m * (x + INR n) end.

Lemma fold_right_Rmult_app l1 l2 :
  fold_right Rmult 1 (l1 ++ l2) = fold_right Rmult 1 l1 * fold_right Rmult 1 l2.
Proof. induction l1 as [|a l1 IH]; simpl; [ring|rewrite IH; ring]. Qed.

Lemma rise_eq x n :
  fold_right Rmult 1 (map (fun k => x + INR k) (seq 0 (n + 1))) = rise x n.
Proof.
  induction n as [|n IH].
  - simpl. ring.
  - replace (S n + 1)%nat with (S (n + 1)) by lia.
    rewrite seq_S, map_app, fold_right_Rmult_app, IH.
    cbn [map fold_right]. rewrite Nat.add_0_l. cbn [rise].
    replace (n + 1)%nat with (S n) by lia. ring.
Qed.

Lemma gauss_eq x n :
  gauss_gamma_seq x n = INR (fact n) * Rpower (INR n) x / rise x n.
Proof. unfold gauss_gamma_seq. now rewrite rise_eq. Qed.

Lemma rise_shift x n : x * rise (x + 1) n = rise x n * (x + INR n + 1).
Proof.
  induction n as [|n IH].
  - simpl. ring.
  - cbn [rise]. rewrite <- Rmult_assoc, IH, S_INR. ring.
Qed.

Lemma rise_pos x n : 0 < x -> 0 < rise x n.
Proof.
  intros Hx. induction n as [|n IH]; cbn [rise]; [easy|].
  apply Rmult_lt_0_compat; [easy|].
  generalize (pos_INR (S n)); lra.
Qed.

Lemma rise_neq x n : (forall k : nat, x + INR k <> 0) -> rise x n <> 0.
Proof.
  intros Hx. induction n as [|n IH]; cbn [rise].
  - specialize (Hx 0%nat). simpl in Hx. now rewrite Rplus_0_r in Hx.
  - apply Rmult_integral_contrapositive; split; auto.
Qed.

Lemma gauss_shift x n : (forall k : nat, x + INR k <> 0) -> (1 <= n)%nat ->
  gauss_gamma_seq (x + 1) n = x * gauss_gamma_seq x n * (INR n / (x + INR n + 1)).
Proof.
  intros Hx Hn. rewrite !gauss_eq.
  assert (Hn' : 0 < INR n) by (apply lt_0_INR; lia).
  assert (H0 : x <> 0) by (specialize (Hx 0%nat); simpl in Hx; lra).
  assert (H1 : x + INR n + 1 <> 0)
    by (specialize (Hx (S n)); rewrite S_INR in Hx; lra).
  pose proof (rise_neq x n Hx) as Hr.
  assert (Hr1 : rise (x + 1) n = rise x n * (x + INR n + 1) / x).
  { rewrite <- rise_shift. field. easy. }
  rewrite Hr1, Rpower_plus, Rpower_1 by easy.
  field. repeat split; first [easy|lra].
Qed.

(** Weighted AM-GM in the form of Bernoulli's inequality for real exponents. *)
Lemma ln_le_sub1 y : 0 < y -> ln y <= y - 1.
Proof.
  intros Hy. rewrite <- (ln_exp (y - 1)). apply ln_le; [easy|].
  generalize (exp_ineq1_le (y - 1)); lra.
Qed.

Lemma bernoulli_R x u : 0 <= x <= 1 -> 0 < u -> Rpower u x <= 1 + x * (u - 1).
Proof.
  intros Hx Hu.
  assert (Hw : 0 < 1 + x * (u - 1)) by nra.
  unfold Rpower. rewrite <- (exp_ln (1 + x * (u - 1))) by easy.
  set (w := 1 + x * (u - 1)) in *.
  assert (H : x * ln u <= ln w).
  { pose proof (ln_le_sub1 (u / w) ltac:(apply Rdiv_lt_0_compat; easy)) as H1.
    pose proof (ln_le_sub1 (/ w) ltac:(apply Rinv_0_lt_compat; easy)) as H2.
    unfold Rdiv in H1. rewrite ln_mult in H1 by (try apply Rinv_0_lt_compat; easy).
    rewrite !ln_Rinv in H1 by easy. rewrite ln_Rinv in H2 by easy.
    assert (H3 : x * (u * / w - 1) + (1 - x) * (/ w - 1) = 0)
      by (unfold w; field; fold w; lra).
    nra. }
  destruct (Rle_lt_or_eq_dec _ _ H) as [Hl|He].
  - left. now apply exp_increasing.
  - rewrite He. lra.
Qed.

(** For 0 < x <= 1 the Gauss sequence increases and is bounded. *)
Lemma gauss_ratio x n : 0 < x -> (1 <= n)%nat ->
  gauss_gamma_seq x (S n)
  = gauss_gamma_seq x n * (Rpower (INR (S n) / INR n) x * (INR (S n) / (x + INR (S n)))).
Proof.
  intros Hx Hn. rewrite !gauss_eq.
  assert (Hn' : 0 < INR n) by (apply lt_0_INR; lia).
  assert (HS : 0 < INR (S n)) by (apply lt_0_INR; lia).
  pose proof (rise_pos x n Hx).
  cbn [rise]. change (fact (S n)) with (S n * fact n)%nat. rewrite mult_INR.
  unfold Rdiv at 3. rewrite <- Rpower_mult_distr
    by (try apply Rinv_0_lt_compat; easy).
  assert (Hi : Rpower (/ INR n) x = / Rpower (INR n) x).
  { unfold Rpower. rewrite ln_Rinv by easy. rewrite <- exp_Ropp. f_equal. ring. }
  rewrite Hi, (S_INR n).
  assert (Hp : Rpower (INR n) x <> 0).
  { unfold Rpower. generalize (exp_pos (x * ln (INR n))); lra. }
  field. repeat split; try lra.
Qed.

Lemma gauss_pos x n : 0 < x -> 0 < gauss_gamma_seq x n.
Proof.
  intros Hx. rewrite gauss_eq. apply Rdiv_lt_0_compat; [|now apply rise_pos].
  apply Rmult_lt_0_compat; [apply INR_fact_lt_0|apply exp_pos].
Qed.

Lemma gauss_incr x n : 0 < x <= 1 -> (1 <= n)%nat ->
  gauss_gamma_seq x n <= gauss_gamma_seq x (S n).
Proof.
  intros Hx Hn. rewrite gauss_ratio by easy.
  assert (Hn' : 0 < INR n) by (apply lt_0_INR; lia).
  pose proof (S_INR n) as HS.
  pose proof (gauss_pos x n ltac:(easy)) as Hg.
  set (q := Rpower (INR (S n) / INR n) x).
  assert (Hq : 1 <= q * (INR (S n) / (x + INR (S n)))).
  { assert (Hb : Rpower (INR n / INR (S n)) x <= 1 + x * (INR n / INR (S n) - 1)).
    { apply bernoulli_R; [lra|]. apply Rdiv_lt_0_compat; lra. }
    assert (Hinv : Rpower (INR n / INR (S n)) x * q = 1).
    { unfold q. rewrite Rpower_mult_distr by (apply Rdiv_lt_0_compat; lra).
      replace (INR n / INR (S n) * (INR (S n) / INR n)) with 1 by (field; lra).
      unfold Rpower. rewrite ln_1, Rmult_0_r. apply exp_0. }
    assert (Hq0 : 0 < q) by (unfold q, Rpower; apply exp_pos).
    rewrite HS in *. set (m := INR n) in *.
    replace (1 + x * (m / (m + 1) - 1)) with ((m + 1 - x) / (m + 1)) in Hb by (field; lra).
    assert (H1 : 1 <= (m + 1 - x) / (m + 1) * q).
    { eapply Rle_trans; [apply Req_le; symmetry; exact Hinv|]. apply Rmult_le_compat_r; lra. }
    apply Rle_trans with ((m + 1 - x) / (m + 1) * q); [easy|].
    rewrite (Rmult_comm _ q). apply Rmult_le_compat_l; [lra|].
    apply Rminus_le_0.
    replace ((m + 1) / (x + (m + 1)) - (m + 1 - x) / (m + 1))
      with (x * x / ((x + (m + 1)) * (m + 1))) by (field; split; lra).
    apply Rmult_le_pos; [nra|]. left. apply Rinv_0_lt_compat. nra. }
  nra.
Qed.

(** The upper companion n! (n+1)^x / (x ... (x+n)) decreases. *)
Lemma gauss_upper x n : 0 < x <= 1 -> (1 <= n)%nat ->
  gauss_gamma_seq x n <= Rpower 2 x / (x * (x + 1)).
Proof.
  intros Hx Hn.
  assert (H : INR (fact n) * Rpower (INR (S n)) x / rise x n
              <= Rpower 2 x / (x * (x + 1))).
  { induction Hn as [|n Hn IH].
    - cbn [rise fact]. simpl INR. replace (1 + 1) with 2 by ring. apply Req_le. field. lra.
    - eapply Rle_trans; [|exact IH].
      assert (Hn' : 0 < INR n) by (apply lt_0_INR; lia).
      pose proof (rise_pos x n ltac:(easy)) as Hr.
      cbn [rise]. change (fact (S n)) with (S n * fact n)%nat. rewrite mult_INR.
      pose proof (S_INR n) as HS. pose proof (S_INR (S n)) as HSS.
      assert (Hb : Rpower (INR (S (S n)) / INR (S n)) x <= 1 + x * (INR (S (S n)) / INR (S n) - 1)).
      { apply bernoulli_R; [lra|]. apply Rdiv_lt_0_compat; lra. }
      assert (Hs : Rpower (INR (S (S n))) x
                   = Rpower (INR (S (S n)) / INR (S n)) x * Rpower (INR (S n)) x).
      { rewrite Rpower_mult_distr; [f_equal; field; lra|apply Rdiv_lt_0_compat; lra|lra]. }
      rewrite Hs. set (p := Rpower (INR (S n)) x).
      assert (Hp : 0 < p) by (unfold p, Rpower; apply exp_pos).
      set (q := Rpower (INR (S (S n)) / INR (S n)) x) in *.
      pose proof (INR_fact_lt_0 n) as Hf.
      replace (1 + x * (INR (S (S n)) / INR (S n) - 1)) with ((x + INR (S n)) / INR (S n)) in Hb
        by (rewrite HSS; field; lra).
      apply Rle_trans with (INR (S n) * INR (fact n) * ((x + INR (S n)) / INR (S n) * p)
                            / (rise x n * (x + INR (S n)))).
      + apply Rmult_le_compat_r.
        { left. apply Rinv_0_lt_compat. nra. }
        apply Rmult_le_compat_l; [nra|]. apply Rmult_le_compat_r; lra.
      + apply Req_le. field. repeat split; lra. }
  eapply Rle_trans; [|exact H].
  rewrite gauss_eq.
  apply Rmult_le_compat_r; [left; apply Rinv_0_lt_compat, rise_pos; easy|].
  apply Rmult_le_compat_l; [left; apply INR_fact_lt_0|].
  assert (Hn' : 0 < INR n) by (apply lt_0_INR; lia).
  unfold Rpower. left. apply exp_increasing.
  apply Rmult_lt_compat_l; [easy|]. apply ln_increasing; [easy|]. rewrite S_INR; lra.
Qed.

Lemma gauss_lim_01 x : 0 < x <= 1 ->
  exists l : R, is_lim_seq (gauss_gamma_seq x) (Finite l) /\ 0 < l <= Rpower 2 x / (x * (x + 1)).
Proof.
  intros Hx.
  destruct (ex_finite_lim_seq_incr (fun n => gauss_gamma_seq x (n + 1))
              (Rpower 2 x / (x * (x + 1)))) as [l Hl].
  - intros n. replace (S n + 1)%nat with (S (n + 1)) by lia. apply gauss_incr; [easy|lia].
  - intros n. apply gauss_upper; [easy|lia].
  - exists l. split; [|split].
    + now apply (is_lim_seq_incr_n _ 1).
    + apply Rlt_le_trans with (gauss_gamma_seq x 1); [now apply gauss_pos|].
      apply (is_lim_seq_incr_compare (fun n => gauss_gamma_seq x (n + 1)) l Hl) with (n := 0%nat).
      intros n. replace (S n + 1)%nat with (S (n + 1)) by lia. apply gauss_incr; [easy|lia].
    + apply (is_lim_seq_le (fun n => gauss_gamma_seq x (n + 1))
               (fun _ => Rpower 2 x / (x * (x + 1))) l (Rpower 2 x / (x * (x + 1)))).
      * intros n. apply gauss_upper; [easy|lia].
      * easy.
      * apply is_lim_seq_const.
Qed.

Lemma lim_frac x : is_lim_seq (fun n => INR n / (x + INR n + 1)) 1.
Proof.
  apply is_lim_seq_ext_loc with (fun n => / (1 + (x + 1) * / INR n)).
  - assert (He : eventually (fun n => Rabs (x + 1) < INR n)).
    { destruct (INR_unbounded (Rabs (x + 1))) as [N HN]. exists N. intros n Hn.
      eapply Rlt_le_trans; [exact HN|]. now apply le_INR. }
    destruct He as [N HN]. exists (S N). intros n Hn.
    specialize (HN n ltac:(lia)).
    assert (Hn0 : 0 < INR n) by (apply lt_0_INR; lia).
    assert (x + INR n + 1 <> 0).
    { unfold Rabs in HN. destruct (Rcase_abs (x + 1)); lra. }
    field. repeat split; lra.
  - replace (Finite 1) with (Rbar_inv (Finite (1 + (x + 1) * 0)))
      by (simpl; f_equal; field).
    apply is_lim_seq_inv; [|intros H; injection H; lra].
    apply is_lim_seq_plus'; [apply is_lim_seq_const|].
    apply is_lim_seq_mult'; [apply is_lim_seq_const|].
    apply (is_lim_seq_inv INR p_infty); [apply is_lim_seq_INR|easy].
Qed.

Lemma gauss_lim_shift x l : (forall k : nat, x + INR k <> 0) ->
  is_lim_seq (gauss_gamma_seq x) (Finite l) ->
  is_lim_seq (gauss_gamma_seq (x + 1)) (Finite (x * l)).
Proof.
  intros Hx Hl.
  apply is_lim_seq_ext_loc with (fun n => x * gauss_gamma_seq x n * (INR n / (x + INR n + 1))).
  - exists 1%nat. intros n Hn. symmetry. now apply gauss_shift.
  - replace (x * l) with (x * l * 1) by ring.
    apply is_lim_seq_mult'; [|apply lim_frac].
    apply is_lim_seq_mult'; [apply is_lim_seq_const|easy].
Qed.

Lemma pos_noroot x : 0 < x -> forall k : nat, x + INR k <> 0.
Proof. intros Hx k. generalize (pos_INR k). lra. Qed.

Lemma gauss_lim_pos x : 0 < x -> exists l, is_lim_seq (gauss_gamma_seq x) (Finite l) /\ 0 < l.
Proof.
  intros Hx.
  assert (H : forall n : nat, forall y, 0 < y -> y <= INR n + 1 ->
            exists l, is_lim_seq (gauss_gamma_seq y) (Finite l) /\ 0 < l).
  { induction n as [|n IH]; intros y Hy Hyn.
    - simpl in Hyn. destruct (gauss_lim_01 y ltac:(lra)) as (l & Hl & Hp). exists l. split; [easy|lra].
    - rewrite S_INR in Hyn. destruct (Rle_lt_dec y 1) as [Hy1|Hy1].
      + destruct (gauss_lim_01 y ltac:(lra)) as (l & Hl & Hp). exists l. split; [easy|lra].
      + destruct (IH (y - 1) ltac:(lra) ltac:(lra)) as (l & Hl & Hp).
        exists ((y - 1) * l). split; [|nra].
        replace y with (y - 1 + 1) at 1 by ring.
        apply gauss_lim_shift; [apply pos_noroot; lra|easy]. }
  destruct (INR_unbounded x) as [n Hn].
  apply (H n); lra.
Qed.

Lemma gauss_lim_neg x : -1 < x < 0 -> exists l, is_lim_seq (gauss_gamma_seq x) (Finite l) /\ l < 0.
Proof.
  intros Hx.
  destruct (gauss_lim_pos (x + 1) ltac:(lra)) as (l & Hl & Hp).
  assert (Hnr : forall k : nat, x + INR k <> 0).
  { intros [|k]; [simpl; lra|]. rewrite S_INR. generalize (pos_INR k); lra. }
  exists (l / x). split.
  - apply is_lim_seq_ext_loc with
      (fun n => gauss_gamma_seq (x + 1) n * / x * / (INR n / (x + INR n + 1))).
    + exists 1%nat. intros n Hn. rewrite gauss_shift by easy.
      assert (0 < INR n) by (apply lt_0_INR; lia).
      field. repeat split; try lra.
    + replace (l / x) with (l * / x * / 1) by (field; lra).
      apply is_lim_seq_mult'; [apply is_lim_seq_mult'; [easy|apply is_lim_seq_const]|].
      apply (is_lim_seq_inv _ (Finite 1)); [apply lim_frac|].
      intros H; injection H; lra.
  - unfold Rdiv. apply Ropp_lt_cancel. rewrite Ropp_0.
    replace (- (l * / x)) with (l * / (- x)) by (field; lra).
    apply Rmult_lt_0_compat; [easy|]. apply Rinv_0_lt_compat; lra.
Qed.

Lemma gamma_lim x l : is_lim_seq (gauss_gamma_seq x) (Finite l) -> gamma x = l.
Proof. intros H. unfold gamma. now rewrite (is_lim_seq_unique _ _ H). Qed.

Theorem gamma_pos x : 0 < x -> 0 < gamma x.
Proof. intros Hx. destruct (gauss_lim_pos x Hx) as (l & Hl & Hp). now rewrite (gamma_lim x l). Qed.

Theorem gamma_neg x : -1 < x < 0 -> gamma x < 0.
Proof. intros Hx. destruct (gauss_lim_neg x Hx) as (l & Hl & Hp). now rewrite (gamma_lim x l). Qed.

Theorem gamma_succ x : -1 < x -> x <> 0 -> gamma (x + 1) = x * gamma x.
Proof.
  intros Hx Hx0.
  assert (H : exists l, is_lim_seq (gauss_gamma_seq x) (Finite l)).
  { destruct (Rlt_le_dec 0 x) as [Hp|Hn].
    - destruct (gauss_lim_pos x Hp) as (l & Hl & _). now exists l.
    - destruct (gauss_lim_neg x ltac:(lra)) as (l & Hl & _). now exists l. }
  destruct H as [l Hl].
  rewrite (gamma_lim x l Hl). apply gamma_lim. apply gauss_lim_shift; [|easy].
  intros [|k]; [simpl; lra|]. rewrite S_INR. generalize (pos_INR k); lra.
Qed.

Lemma gauss_1 n : gauss_gamma_seq 1 n = INR (fact n) * Rpower (INR n) 1 / INR (fact (S n)).
Proof.
  rewrite gauss_eq. f_equal. f_equal.
  induction n as [|n IH]; [simpl; lra|].
  change (fact (S (S n))) with (S (S n) * fact (S n))%nat.
  rewrite mult_INR, <- IH. cbn [rise]. rewrite (S_INR (S n)). ring.
Qed.

Theorem gamma_1 : gamma 1 = 1.
Proof.
  apply gamma_lim.
  apply is_lim_seq_ext_loc with (fun n => INR n / (0 + INR n + 1)).
  - exists 1%nat. intros n Hn. rewrite gauss_1.
    assert (0 < INR n) by (apply lt_0_INR; lia).
    rewrite Rpower_1 by easy.
    change (fact (S n)) with (S n * fact n)%nat. rewrite mult_INR, S_INR.
    pose proof (INR_fact_lt_0 n). field. split; lra.
  - apply lim_frac.
Qed.

Theorem gamma_fact n : gamma (INR n + 1) = INR (fact n).
Proof.
  induction n as [|n IH].
  - simpl. rewrite Rplus_0_l. apply gamma_1.
  - rewrite S_INR, gamma_succ, IH; [|generalize (pos_INR n); lra..].
    change (fact (S n)) with (S n * fact n)%nat. rewrite mult_INR, S_INR. ring.
Qed.

(** Upper bound used to show that the tolerance window is not exact. *)
Lemma gamma_upper x : 0 < x <= 1 -> gamma x <= Rpower 2 x / (x * (x + 1)).
Proof.
  intros Hx. destruct (gauss_lim_01 x Hx) as (l & Hl & Hp).
  now rewrite (gamma_lim x l).
Qed.
