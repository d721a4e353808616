(** * The code's [jacobi] equals a multiple of the hypergeometric polynomial
      2F1(-n, n+a+b+1; a+1; (1-x)/2); derivative and end-point values. *)
From Coq Require Import List Arith Bool ZArith Reals Lia Lra.
From Coquelicot Require Import Coquelicot.
From Verif Require Import Py ModelModes RSum ProofGamma.
Import ListNotations.
Local Open Scope R_scope.

(** Coefficient of ((x-1)/2)^k; [s] stands for a+b. *)
Fixpoint qc (a s : R) (n k : nat) : R :=
  match k with
  | O => 1
  | S m => qc a s n m * ((INR n - INR m) * (INR n + s + 1 + INR m))
           / ((INR m + 1) * (a + 1 + INR m))
  end.

Definition F (a s : R) (n : nat) (x : R) : R :=
  rsum (fun k => qc a s n k * ((x - 1) / 2) ^ k) (S n).

Section Coeff.
  Context (a s : R) (Ha : -1 < a).

  Lemma den_pos m : 0 < (INR m + 1) * (a + 1 + INR m).
  Proof. generalize (pos_INR m). intros. apply Rmult_lt_0_compat; lra. Qed.
  Lemma d1_neq m : INR m + 1 <> 0. Proof. generalize (pos_INR m). lra. Qed.
  Lemma d2_neq m : a + 1 + INR m <> 0. Proof. generalize (pos_INR m). lra. Qed.

  Lemma qc_zero n k : (n < k)%nat -> qc a s n k = 0.
  Proof.
    induction 1 as [|k Hk IH]; cbn [qc].
    - unfold Rdiv. rewrite Rminus_diag_eq by easy. ring.
    - rewrite IH. unfold Rdiv. ring.
  Qed.

  Lemma qc_S n m : qc a s n (S m) * ((INR m + 1) * (a + 1 + INR m))
                   = qc a s n m * ((INR n - INR m) * (INR n + s + 1 + INR m)).
  Proof. cbn [qc]. field. split; [apply d2_neq|apply d1_neq]. Qed.

  (** q(n+1,m+1) and q(n-1,m+1) from q(n,m) *)
  Lemma qc_up n m : qc a s (S n) (S m) * (INR n + s + 1) * ((INR m + 1) * (a + 1 + INR m))
                    = (INR n + 1) * (INR n + s + 1 + INR m) * (INR n + s + 2 + INR m)
                      * qc a s n m.
  Proof.
    induction m as [|m IH].
    - cbn [qc]. rewrite S_INR. simpl INR. field. lra.
    - change (qc a s (S n) (S (S m))) with
        (qc a s (S n) (S m) * ((INR (S n) - INR (S m)) * (INR (S n) + s + 1 + INR (S m)))
         / ((INR (S m) + 1) * (a + 1 + INR (S m)))).
      change (qc a s n (S m)) with (qc a s n m * ((INR n - INR m) * (INR n + s + 1 + INR m))
           / ((INR m + 1) * (a + 1 + INR m))).
      pose proof (d1_neq m). pose proof (d2_neq m).
      pose proof (d1_neq (S m)). pose proof (d2_neq (S m)).
      apply Rmult_eq_reg_r with ((INR m + 1) * (a + 1 + INR m));
        [|pose proof (den_pos m); lra].
      transitivity ((INR (S n) - INR (S m)) * (INR (S n) + s + 1 + INR (S m))
                    * (qc a s (S n) (S m) * (INR n + s + 1) * ((INR m + 1) * (a + 1 + INR m)))).
      + field. now split.
      + rewrite IH, !S_INR. field. now split.
  Qed.

  Lemma qc_down n m : qc a s n (S m) * (INR n + 1) * ((INR m + 1) * (a + 1 + INR m))
                      = (INR n - INR m) * (INR n + 1 - INR m) * (INR n + 1 + s) * qc a s (S n) m.
  Proof.
    induction m as [|m IH].
    - cbn [qc]. simpl INR. field. lra.
    - change (qc a s n (S (S m))) with
        (qc a s n (S m) * ((INR n - INR (S m)) * (INR n + s + 1 + INR (S m)))
         / ((INR (S m) + 1) * (a + 1 + INR (S m)))).
      change (qc a s (S n) (S m)) with
        (qc a s (S n) m * ((INR (S n) - INR m) * (INR (S n) + s + 1 + INR m))
           / ((INR m + 1) * (a + 1 + INR m))).
      pose proof (d1_neq m). pose proof (d2_neq m).
      pose proof (d1_neq (S m)). pose proof (d2_neq (S m)).
      apply Rmult_eq_reg_r with ((INR m + 1) * (a + 1 + INR m));
        [|pose proof (den_pos m); lra].
      transitivity ((INR n - INR (S m)) * (INR n + s + 1 + INR (S m))
                    * (qc a s n (S m) * (INR n + 1) * ((INR m + 1) * (a + 1 + INR m)))).
      + field. now split.
      + rewrite IH, !S_INR. field. now split.
  Qed.

  Lemma F_ext n N x : (n < N)%nat ->
    F a s n x = rsum (fun k => qc a s n k * ((x - 1) / 2) ^ k) N.
  Proof.
    intros H. unfold F. symmetry. apply rsum_tail; [lia|].
    intros k Hk. rewrite qc_zero by lia. ring.
  Qed.

  (** Three-term recurrence, n >= 1 written as n+1; degrees n+2, n+1, n. *)
  Lemma F_rec n x : -2 < s ->
    let m := INR n + 1 in
    2 * (m + 1 + a) * (m + s + 1) * (2 * m + s) * F a s (S (S n)) x
    = (2 * m + s + 1) * ((2 * m + s) * (2 * m + s + 2) * x + a * a - (s - a) * (s - a)) * F a s (S n) x
      - 2 * m * (m + (s - a)) * (2 * m + s + 2) * F a s n x.
  Proof.
    intros Hs m.
    rewrite (F_ext (S (S n)) (S (S (S n)))), (F_ext (S n) (S (S n))), (F_ext n (S (S (S n)))) by lia.
    set (u := (x - 1) / 2).
    replace x with (1 + 2 * u) by (unfold u; field).
    set (f1 := fun k => qc a s (S n) k * u ^ k).
    assert (E1 : rsum f1 (S (S n)) = 1 + rsum (fun k => qc a s (S n) (S k) * u ^ (S k)) (S (S n))).
    { transitivity (rsum f1 (S (S (S n)))).
      - symmetry. apply rsum_tail; [lia|]. intros k Hk. unfold f1.
        rewrite qc_zero by lia. ring.
      - rewrite rsum_shift. unfold f1. cbn [qc pow]. ring. }
    assert (E2 : u * rsum f1 (S (S n)) = rsum (fun k => qc a s (S n) k * u ^ (S k)) (S (S n))).
    { rewrite <- rsum_scal. apply rsum_ext. intros k _. unfold f1. cbn [pow]. ring. }
    rewrite (rsum_shift (fun k => qc a s (S (S n)) k * u ^ k)).
    rewrite (rsum_shift (fun k => qc a s n k * u ^ k)).
    cbn [qc pow].
    fold (rsum (fun k => qc a s n (S k) * u ^ (S k)) (S (S n))).
    transitivity
      ((2 * m + s + 1) * (((2 * m + s) * (2 * m + s + 2) + a * a - (s - a) * (s - a)) * rsum f1 (S (S n))
         + (2 * m + s) * (2 * m + s + 2) * 2 * (u * rsum f1 (S (S n))))
       - 2 * m * (m + (s - a)) * (2 * m + s + 2)
         * (1 * 1 + rsum (fun k => qc a s n (S k) * u ^ (S k)) (S (S n)))).
    2:{ cbn [pow qc]. ring. }
    rewrite E2, E1.
    cut (2 * (m + 1 + a) * (m + s + 1) * (2 * m + s)
           * rsum (fun k => qc a s (S (S n)) (S k) * u ^ S k) (S (S n))
         = (2 * m + s + 1) *
             (((2 * m + s) * (2 * m + s + 2) + a * a - (s - a) * (s - a)) *
                rsum (fun k => qc a s (S n) (S k) * u ^ S k) (S (S n)) +
              (2 * m + s) * (2 * m + s + 2) * 2 *
                rsum (fun k => qc a s (S n) k * u ^ S k) (S (S n))) -
           2 * m * (m + (s - a)) * (2 * m + s + 2) *
             rsum (fun k => qc a s n (S k) * u ^ S k) (S (S n))).
    { cbn [pow qc]. intros E. rewrite Rmult_plus_distr_l, E. ring. }
    rewrite <- !rsum_scal, <- rsum_plus, <- rsum_scal, <- rsum_minus.
    apply rsum_ext. intros k _.
    pose proof (qc_up (S n) k) as Hu. pose proof (qc_down n k) as Hd.
    pose proof (qc_S (S n) k) as Hc.
    pose proof (d1_neq k) as K1. pose proof (d2_neq k) as K2.
    rewrite (S_INR n) in Hu, Hc. change (INR n + 1) with m in Hu, Hc.
    assert (Hm : 1 <= m) by (unfold m; generalize (pos_INR n); lra).
    replace (INR n) with (m - 1) in Hd by (unfold m; ring).
    apply Rmult_eq_reg_r with ((INR k + 1) * (a + 1 + INR k) * (m * (m + s + 1)));
      [|apply Rmult_integral_contrapositive_currified;
        [pose proof (den_pos k); lra|apply Rgt_not_eq, Rmult_lt_0_compat; lra]].
    set (Q0 := qc a s (S n) k) in *. set (Q1 := qc a s (S n) (S k)) in *.
    set (Qu := qc a s (S (S n)) (S k)) in *. set (Qd := qc a s n (S k)) in *.
    set (U := u ^ S k). set (j := INR k) in *. clearbody Q0 Q1 Qu Qd U j.
    transitivity (2 * (m + 1 + a) * (m + s + 1) * (2 * m + s) * m * U
                  * (Qu * (m + s + 1) * ((j + 1) * (a + 1 + j)))); [ring|].
    rewrite Hu.
    transitivity ((2 * m + s + 1) *
             (((2 * m + s) * (2 * m + s + 2) + a * a - (s - a) * (s - a))
              * (Q1 * ((j + 1) * (a + 1 + j)))  +
              (2 * m + s) * (2 * m + s + 2) * 2 * Q0 * ((j + 1) * (a + 1 + j))) * U * (m * (m + s + 1)) -
           2 * (m + (s - a)) * (2 * m + s + 2) * m
             * (Qd * (m - 1 + 1) * ((j + 1) * (a + 1 + j))) * U * (m + s + 1)); [|ring].
    rewrite Hc, Hd. ring.
  Qed.

  Lemma F_0 x : F a s 0 x = 1.
  Proof. unfold F. cbn [rsum qc pow]. ring. Qed.
  Lemma F_1 x : F a s 1 x = 1 + (s + 2) / (a + 1) * ((x - 1) / 2).
  Proof. unfold F. cbn [rsum qc pow]. simpl INR. field. lra. Qed.
  Lemma F_at1 n : F a s n 1 = 1.
  Proof.
    unfold F. rewrite rsum_shift, rsum_0; [cbn [qc pow]; ring|].
    intros k _. replace ((1 - 1) / 2) with 0 by field. cbn [pow]. ring.
  Qed.
End Coeff.

(** Derivative of F: shifts the parameters. *)
Lemma qc_deriv a s n k : -1 < a ->
  INR (S k) * qc a s (S n) (S k) * (a + 1) = (INR n + 1) * (INR n + 1 + s + 1) * qc (a + 1) (s + 2) n k.
Proof.
  intros Ha. induction k as [|k IH].
  - cbn [qc]. rewrite (S_INR n). change (INR 1) with 1. change (INR 0) with 0. field. lra.
  - change (qc a s (S n) (S (S k))) with
      (qc a s (S n) (S k) * ((INR (S n) - INR (S k)) * (INR (S n) + s + 1 + INR (S k)))
         / ((INR (S k) + 1) * (a + 1 + INR (S k)))).
    change (qc (a + 1) (s + 2) n (S k)) with
      (qc (a + 1) (s + 2) n k * ((INR n - INR k) * (INR n + (s + 2) + 1 + INR k))
         / ((INR k + 1) * (a + 1 + 1 + INR k))).
    pose proof (pos_INR k).
    transitivity (INR (S k) * qc a s (S n) (S k) * (a + 1)
       * ((INR (S n) - INR (S k)) * (INR (S n) + s + 1 + INR (S k)))
         / (INR (S k) * (a + 1 + INR (S k)))).
    + rewrite !S_INR. field. repeat split; lra.
    + rewrite IH, !S_INR. field. repeat split; lra.
Qed.

Lemma is_derive_rsum (f : nat -> R -> R) (df : nat -> R) n x :
  (forall k, (k < n)%nat -> is_derive (f k) x (df k)) ->
  is_derive (fun y => rsum (fun k => f k y) n) x (rsum df n).
Proof.
  induction n as [|n IH]; intros H; cbn [rsum].
  - apply @is_derive_const.
  - apply @is_derive_plus; [apply IH; auto|apply H; auto].
Qed.

Lemma F_deriv a s n x : -1 < a ->
  is_derive (F a s (S n)) x
    ((INR n + 1) * (INR n + s + 2) / (2 * (a + 1)) * F (a + 1) (s + 2) n x).
Proof.
  intros Ha. unfold F at 1.
  apply is_derive_ext with
    (fun y => 1 + rsum (fun k => qc a s (S n) (S k) * ((y - 1) / 2) ^ (S k)) (S n)).
  { intros t. rewrite (rsum_shift _ (S n)). cbn [qc pow].
    match goal with |- ?l = ?r => change (@eq R l r) end. ring. }
  replace ((INR n + 1) * (INR n + s + 2) / (2 * (a + 1)) * F (a + 1) (s + 2) n x)
    with (0 + rsum (fun k => qc a s (S n) (S k) * (INR (S k) * / 2 * ((x - 1) / 2) ^ k)) (S n)).
  2:{ rewrite Rplus_0_l. unfold F. rewrite <- rsum_scal. apply rsum_ext. intros k _.
      pose proof (qc_deriv a s n k Ha) as H.
      apply Rmult_eq_reg_r with (2 * (a + 1)); [|lra].
      transitivity (INR (S k) * qc a s (S n) (S k) * (a + 1) * ((x - 1) / 2) ^ k); [field|].
      rewrite H. field. lra. }
  apply @is_derive_plus; [apply @is_derive_const|].
  apply is_derive_rsum. intros k _.
  apply (is_derive_scal (fun y => ((y - 1) / 2) ^ (S k))).
  auto_derive; [easy|]. change (match k with 0%nat => 1 | S _ => INR k + 1 end) with (INR (S k)).
  unfold Rdiv, Rminus. ring.
Qed.

(** ** The normalised polynomials *)
Definition rho (a b : R) (i : nat) : R :=
  match i with
  | O => (a + 1) * (b + 1) / (a + b + 3)
  | S _ => (2 * INR i + (a + b) + 1) * (INR i + 1 + a) * (INR i + 1 + b)
           / ((2 * INR i + (a + b) + 3) * (INR i + 1) * (INR i + (a + b) + 1))
  end.
Definition rr a b i := sqrt (rho a b i).
Fixpoint kap (a b : R) (n : nat) : R :=
  match n with
  | O => 1 / sqrt (jac_gamma0 a b)
  | S m => kap a b m * ((INR m + 1 + a) / (INR m + 1)) / rr a b m
  end.
Definition jp (a b : R) (n : nat) (x : R) := kap a b n * F a (a + b) n x.

Section Norm.
  Context (a b : R) (Ha : -1 < a) (Hb : -1 < b).
  Let s := a + b.

  Lemma rho_pos i : 0 < rho a b i.
  Proof.
    destruct i as [|i]; unfold rho.
    - apply Rdiv_lt_0_compat; [apply Rmult_lt_0_compat|]; lra.
    - pose proof (pos_INR i). rewrite S_INR.
      apply Rdiv_lt_0_compat; repeat apply Rmult_lt_0_compat; lra.
  Qed.
  Lemma rr_pos i : 0 < rr a b i.
  Proof. apply sqrt_lt_R0, rho_pos. Qed.
  Lemma rr_sq i : rr a b i * rr a b i = rho a b i.
  Proof. apply sqrt_sqrt. left. apply rho_pos. Qed.

  (** The recurrence coefficient, in closed form *)
  Definition A (i : nat) : R :=
    match i with
    | O => 2 / (s + 2) * rr a b 0
    | S _ => 2 / (2 * INR i + s + 2) * ((INR i + 1) * (INR i + 1 + s) / (2 * INR i + s + 1)) * rr a b i
    end.

  Lemma A_pos i : 0 < A i.
  Proof.
    pose proof (rr_pos i). destruct i as [|i]; unfold A.
    - apply Rmult_lt_0_compat; [|easy]. apply Rdiv_lt_0_compat; unfold s; lra.
    - pose proof (pos_INR i). rewrite S_INR. unfold s.
      apply Rmult_lt_0_compat; [|easy].
      apply Rmult_lt_0_compat; apply Rdiv_lt_0_compat; try apply Rmult_lt_0_compat; lra.
  Qed.

  Lemma A_0 : 2 / (2 + a + b) * sqrt ((a + 1) * (b + 1) / (a + b + 3)) = A 0.
  Proof. unfold A, rr, rho, s. f_equal. f_equal. ring. Qed.

  Lemma A_S i : jac_anew a b (S i) = A (S i).
  Proof.
    unfold jac_anew, A. cbv zeta. set (j := INR (S i)).
    replace (2 * j + a + b) with (2 * j + s) by (unfold s; ring).
    assert (Hj : 1 <= j) by (unfold j; rewrite S_INR; generalize (pos_INR i); lra).
    rewrite (Rmult_assoc (2 / (2 * j + s + 2))). apply f_equal.
    unfold rr, rho. fold j. fold s.
    set (X := (j + 1) * (j + 1 + s) / (2 * j + s + 1)).
    assert (HX : 0 <= X).
    { apply Rlt_le, Rdiv_lt_0_compat; [apply Rmult_lt_0_compat|]; unfold s; lra. }
    rewrite <- (sqrt_square X HX) at 1.
    rewrite <- sqrt_mult_alt by (apply Rle_0_sqr).
    f_equal. unfold X, s. field. repeat split; lra.
  Qed.

  Lemma A_kap n : A n * kap a b n
     = kap a b (S n) * (2 * (INR n + 1) * (INR n + 1 + b)
          / ((2 * (INR n + 1) + s) * (2 * (INR n + 1) + s + 1))).
  Proof.
    cbn [kap]. pose proof (rr_sq n) as Hr. pose proof (rr_pos n) as Hp.
    pose proof (pos_INR n) as Hn.
    assert (HA : A n * rr a b n = 2 * (INR n + 1 + a) * (INR n + 1 + b)
              / ((2 * (INR n + 1) + s) * (2 * (INR n + 1) + s + 1))).
    { destruct n as [|n]; unfold A; rewrite Rmult_assoc, Hr; unfold rho, s.
      - simpl INR. field. lra.
      - pose proof (pos_INR n). rewrite !S_INR. field. repeat split; lra. }
    transitivity (A n * rr a b n * kap a b n / rr a b n); [field; lra|].
    rewrite HA. unfold s. field. repeat split; lra.
  Qed.

  Lemma A_kap_up n : A (S n) * kap a b (S (S n))
     = kap a b (S n) * (2 * (INR n + 2 + s) * (INR n + 2 + a)
          / ((2 * (INR n + 1) + s + 2) * (2 * (INR n + 1) + s + 1))).
  Proof.
    change (kap a b (S (S n))) with
      (kap a b (S n) * ((INR (S n) + 1 + a) / (INR (S n) + 1)) / rr a b (S n)).
    pose proof (rr_pos (S n)) as Hp. unfold A. rewrite S_INR.
    pose proof (pos_INR n) as Hn. unfold s. field. repeat split; lra.
  Qed.

  (** Three-term recurrence for the normalised polynomials *)
  Lemma jp_rec n x : (x - jac_bnew a b (S n)) * jp a b (S n) x
     = A (S n) * jp a b (S (S n)) x + A n * jp a b n x.
  Proof.
    unfold jp. rewrite <- !Rmult_assoc, A_kap_up, A_kap.
    pose proof (F_rec a s Ha n x ltac:(unfold s; lra)) as H. cbv zeta in H. fold s.
    pose proof (pos_INR n) as Hn.
    unfold jac_bnew. rewrite S_INR.
    set (F2 := F a s (S (S n)) x) in *. set (F1 := F a s (S n) x) in *. set (F0 := F a s n x) in *.
    assert (E : F2 = ((2 * (INR n + 1) + s + 1) * ((2 * (INR n + 1) + s) * (2 * (INR n + 1) + s + 2) * x
          + a * a - (s - a) * (s - a)) * F1
          - 2 * (INR n + 1) * (INR n + 1 + (s - a)) * (2 * (INR n + 1) + s + 2) * F0)
          / (2 * (INR n + 1 + 1 + a) * (INR n + 1 + s + 1) * (2 * (INR n + 1) + s))).
    { rewrite <- H. field. unfold s. repeat split; lra. }
    rewrite E. unfold s. field. repeat split; lra.
  Qed.

  Lemma jac_loop_spec x steps : forall i,
    jac_loop Rops a b x (S i) steps (A i) (jp a b i x) (jp a b (S i) x)
    = jp a b (S i + steps) x.
  Proof.
    induction steps as [|st IH]; intros i.
    - now rewrite Nat.add_0_r.
    - cbn [jac_loop Rops vcse vdiv vadd vmul vsub vc]. rewrite A_S.
      replace ((- A i * jp a b i x + (x - jac_bnew a b (S i)) * jp a b (S i) x) / A (S i))
        with (jp a b (S (S i)) x).
      2:{ rewrite jp_rec. pose proof (A_pos (S i)). field. lra. }
      rewrite IH. f_equal. lia.
  Qed.

  Theorem jacobi_jp n x : 0 < jac_gamma0 a b -> jacobi Rops a b n x = jp a b n x.
  Proof.
    intros Hg. unfold jacobi. cbn [Rops vcse vdiv vadd vmul vsub vc].
    assert (E0 : 1 / sqrt (jac_gamma0 a b) + 0 * x = jp a b 0 x).
    { unfold jp. rewrite F_0. cbn [kap]. ring. }
    destruct n as [|n]; [exact E0|].
    assert (E1 : ((a + b + 2) * x / 2 + (a - b) / 2) / sqrt (jac_gamma1 a b) = jp a b 1 x).
    { unfold jp. rewrite F_1 by easy. cbn [kap]. unfold jac_gamma1, rr, rho.
      rewrite sqrt_mult_alt by (apply Rlt_le, Rdiv_lt_0_compat; [apply Rmult_lt_0_compat|]; lra).
      assert (0 < sqrt (jac_gamma0 a b)) by now apply sqrt_lt_R0.
      assert (0 < sqrt ((a + 1) * (b + 1) / (a + b + 3))).
      { apply sqrt_lt_R0, Rdiv_lt_0_compat; [apply Rmult_lt_0_compat|]; lra. }
      simpl INR. field. repeat split; lra. }
    rewrite E0, E1, A_0. apply (jac_loop_spec x n 0).
  Qed.
End Norm.
