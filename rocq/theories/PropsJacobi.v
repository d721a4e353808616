(** * C17, C18, C19: Jacobi polynomials (modepy/modes.py:167-285) *)
From Coq Require Import List Arith Bool ZArith Reals Lia Lra.
From Coquelicot Require Import Coquelicot.
From Verif Require Import Py ModelModes RSum IntFacts ProofGamma ProofJacobi ProofJacobi2
  ProofJacobiOrtho ProofBetaReal.
Import ListNotations.
Local Open Scope R_scope.

(** C17, in the parameter range the simplex bases use: proper Riemann integral. *)
Theorem C17_jacobi_orthonormal_nat (a b m n : nat) :
  is_RInt (fun x => jacobi Rops (INR a) (INR b) m x * jacobi Rops (INR a) (INR b) n x
                    * ((1 - x) ^ a * (1 + x) ^ b)) (-1) 1
          (if (m =? n)%nat then 1 else 0).
Proof. exact (jacobi_orthonormal_nat a b m n). Qed.

(** C17 for the whole documented range a, b > -1 (improper integral).  The side
    condition excludes the code's tolerance window around a + b = -1. *)
Theorem C17_jacobi_orthonormal_real (a b : R) (m n : nat) :
  -1 < a -> -1 < b -> a + b = -1 \/ / 10 ^ 14 <= Rabs (a + b + 1) ->
  is_RInt_gen (fun x => jacobi Rops a b m x * jacobi Rops a b n x
                        * (Rpower (1 - x) a * Rpower (1 + x) b))
    (at_right (-1)) (at_left 1) (if (m =? n)%nat then 1 else 0).
Proof. intros Ha Hb He. exact (jacobi_orthonormal_real a b m n Ha Hb He). Qed.

(** Inside the window the normalisation is only approximate. *)
Theorem C17_window_refuted (a b : R) :
  -1 < a -> -1 < b -> 0 < a + b + 1 < / 10 ^ 14 ->
  ~ is_RInt_gen (fun x => jacobi Rops a b 0 x * jacobi Rops a b 0 x
                          * (Rpower (1 - x) a * Rpower (1 + x) b))
      (at_right (-1)) (at_left 1) 1.
Proof.
  intros Ha Hb Ht H. set (t := a + b + 1) in *.
  assert (Hg : jac_gamma0 a b = gamma (a + 1) * gamma (b + 1)).
  { unfold jac_gamma0. fold t. rewrite Rabs_right by lra.
    destruct (Rlt_dec t _) as [_|Hn]; [easy|lra]. }
  pose proof (gamma_pos (a + 1) ltac:(lra)) as G1. pose proof (gamma_pos (b + 1) ltac:(lra)) as G2.
  pose proof (jac_gamma0_pos a b Ha Hb) as Gp.
  assert (H' : isG (wr a b) (jac_gamma0 a b)).
  { eapply isG_ext; [|eapply isG_eq; [apply (isG_scal (jac_gamma0 a b) _ _ H)|ring]].
    intros x _. cbv beta. rewrite jacobi_jp by easy. unfold jp. rewrite F_0.
    rewrite !Rmult_1_r. rewrite kap_sq_0 by easy. unfold wr. field. lra. }
  pose proof (isG_unique _ _ _ H' (mass_G0 a b Ha Hb)) as E.
  rewrite Hg in E. unfold G0 in E. fold t in E.
  replace (a + b + 2) with (t + 1) in E by (unfold t; ring).
  assert (T : / 10 ^ 14 < 1).
  { rewrite <- Rinv_1. apply Rinv_lt_contravar; lra. }
  rewrite (gamma_succ t) in E by lra.
  pose proof (gamma_upper t ltac:(lra)) as Hu. pose proof (gamma_pos t ltac:(lra)) as G3.
  pose proof (Rpower_pos 2 t) as P.
  assert (E2 : t * gamma t = Rpower 2 t).
  { apply Rmult_eq_reg_r with (gamma (a + 1) * gamma (b + 1)); [|nra].
    rewrite E at 1. field. lra. }
  assert (H2 : t * gamma t * (t + 1) <= Rpower 2 t).
  { apply Rmult_le_compat_l with (r := t * (t + 1)) in Hu; [|nra].
    replace (t * (t + 1) * (Rpower 2 t / (t * (t + 1)))) with (Rpower 2 t) in Hu by (field; lra).
    lra. }
  rewrite E2 in H2. nra.
Qed.

(** C18 *)
Theorem C18_grad_jacobi (a b : R) (n : nat) (x : R) :
  -1 < a -> -1 < b -> a + b = -1 \/ / 10 ^ 14 <= Rabs (a + b + 1) ->
  is_derive (fun y => jacobi Rops a b n y) x (grad_jacobi Rops a b n x).
Proof. exact (grad_jacobi_correct a b n x). Qed.

(** C19; (n+a choose n) is spelled out as the product of (a+k)/k, k = 1..n. *)
Fixpoint gbinom (a : R) (n : nat) : R :=
  match n with O => 1 | S m => gbinom a m * ((a + INR (S m)) / INR (S m)) end.

Lemma binom_gbinom a n : -1 < a -> binom (INR n + a) (INR n) = gbinom a n.
Proof.
  intros Ha. unfold binom. rewrite gamma_fact. replace (INR n + a - INR n + 1) with (a + 1) by ring.
  pose proof (gamma_pos (a + 1) ltac:(lra)) as G. induction n as [|n IH].
  - simpl. rewrite Rplus_0_l. field. lra.
  - cbn [gbinom]. rewrite <- IH. rewrite S_INR. pose proof (pos_INR n).
    replace (INR n + 1 + a + 1) with (INR n + a + 1 + 1) by ring.
    rewrite (gamma_succ (INR n + a + 1)) by lra.
    change (fact (S n)) with (S n * fact n)%nat. rewrite mult_INR, S_INR.
    pose proof (INR_fact_lt_0 n). field. repeat split; lra.
Qed.

Theorem C19_scaled_jacobi (a b : R) (n : nat) :
  -1 < a -> -1 < b -> a + b = -1 \/ 100 * / 2 ^ 52 <= Rabs (a + b + 1) ->
  scaled_jacobi Rops a b n 1 = gbinom a n
  /\ scaled_jacobi Rops a b n (-1) = (-1) ^ n * gbinom b n
  /\ binom (INR n + a) (INR n) = gbinom a n.
Proof.
  intros Ha Hb He. split; [|split].
  - rewrite <- binom_gbinom by easy. now apply scaled_jacobi_1.
  - rewrite <- (binom_gbinom b) by easy. now apply scaled_jacobi_m1.
  - now apply binom_gbinom.
Qed.

(** Non-vacuity: a = -1/2, b = 1/3 meets the conditions, and so does the line a = b = -1/2. *)
Example C17_real_case : -1 < -1/2 /\ -1 < 1/3 /\ / 10 ^ 14 <= Rabs (-1/2 + 1/3 + 1)
  /\ 100 * / 2 ^ 52 <= Rabs (-1/2 + 1/3 + 1) /\ (-1/2) + (-1/2) = -1.
Proof.
  rewrite Rabs_right by lra. repeat split; try lra.
Qed.
Example C17_window_case : -1 < 0 /\ -1 < -1 + / 10 ^ 15 /\ 0 < 0 + (-1 + / 10 ^ 15) + 1 < / 10 ^ 14.
Proof.
  assert (0 < / 10 ^ 15) by (apply Rinv_0_lt_compat, pow_lt; lra).
  assert (/ 10 ^ 15 < / 10 ^ 14).
  { apply Rinv_lt_contravar; [|simpl; lra]. apply Rmult_lt_0_compat; apply pow_lt; lra. }
  repeat split; lra.
Qed.
(** A concrete instance: the Legendre polynomial of degree 2 is orthogonal to that of degree 1. *)
Example C17_case : is_RInt (fun x => jacobi Rops (INR 0) (INR 0) 2 x * jacobi Rops (INR 0) (INR 0) 1 x
                                     * ((1 - x) ^ 0 * (1 + x) ^ 0)) (-1) 1 0.
Proof. exact (C17_jacobi_orthonormal_nat 0 0 2 1). Qed.
Example C19_case : scaled_jacobi Rops 1 0 2 1 = 3.
Proof.
  destruct (C19_scaled_jacobi 1 0 2) as [E _]; try lra.
  - right. rewrite Rabs_right by lra. lra.
  - rewrite E. cbn [gbinom]. simpl INR. field.
Qed.

Print Assumptions C17_jacobi_orthonormal_nat.
Print Assumptions C17_jacobi_orthonormal_real.
Print Assumptions C17_window_refuted.
Print Assumptions C18_grad_jacobi.
Print Assumptions C19_scaled_jacobi.
