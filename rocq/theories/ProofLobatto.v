(** * Legendre polynomials and the Gauss-Lobatto weights *)
From Coquelicot Require Import Coquelicot.
From Coq Require Import List Arith Bool ZArith Reals Lra Lia.
From Verif Require Import Py RSum ModelModes ModelGauss ProofGamma IntFacts.
From Verif Require Import ProofJacobi ProofJacobi2 ProofJacobiOrtho ProofPoly1 ProofGauss ProofGaussExist ProofGauss2.
Import ListNotations.
Local Open Scope R_scope.

Definition P (n : nat) (x : R) : R := F 0 0 n x.
Definition D (n : nat) (x : R) : R := F 1 2 n x.

Lemma P_rec n x : (INR n + 2) * P (S (S n)) x = (2 * INR n + 3) * x * P (S n) x - (INR n + 1) * P n x.
Proof.
  pose proof (F_rec 0 0 ltac:(lra) n x ltac:(lra)) as E. cbv zeta in E. unfold P. pose proof (pos_INR n).
  apply Rmult_eq_reg_l with (4 * (INR n + 1) * (INR n + 2)); [|nra].
  transitivity ((INR n + 2) * (2 * (INR n + 1 + 1 + 0) * (INR n + 1 + 0 + 1) * (2 * (INR n + 1) + 0) * F 0 0 (S (S n)) x) / (INR n + 2)); [field; lra|].
  rewrite E. field. lra.
Qed.
Lemma D_rec n x : (INR n + 4) * D (S (S n)) x = (2 * INR n + 5) * x * D (S n) x - (INR n + 1) * D n x.
Proof.
  pose proof (F_rec 1 2 ltac:(lra) n x ltac:(lra)) as E. cbv zeta in E. unfold D. pose proof (pos_INR n).
  apply Rmult_eq_reg_l with (4 * (INR n + 2) * (INR n + 3)); [|nra].
  transitivity (2 * (INR n + 1 + 1 + 1) * (INR n + 1 + 2 + 1) * (2 * (INR n + 1) + 2) * F 1 2 (S (S n)) x); [ring|].
  rewrite E. ring.
Qed.
Lemma P_deriv n x : is_derive (P (S n)) x ((INR n + 1) * (INR n + 2) / 2 * D n x).
Proof.
  pose proof (F_deriv 0 0 n x ltac:(lra)) as E. unfold P, D.
  replace (0 + 1) with 1 in E by ring. replace (0 + 2) with 2 in E by ring.
  replace ((INR n + 1) * (INR n + 2) / 2) with ((INR n + 1) * (INR n + 0 + 2) / (2 * 1)) by field. exact E.
Qed.
(** 2 P_{n+2} = (n+3) x D_{n+1} - (n+1) D_n, i.e. N P_N = x P_N' - P_{N-1}'. *)
Lemma PD n x : 2 * P (S (S n)) x = (INR n + 3) * x * D (S n) x - (INR n + 1) * D n x.
Proof.
  assert (Q : 2 * P (S (S n)) x = (INR n + 3) * x * D (S n) x - (INR n + 1) * D n x
     /\ 2 * P (S (S (S n))) x = (INR (S n) + 3) * x * D (S (S n)) x - (INR (S n) + 1) * D (S n) x); [|easy].
  assert (P0 : P 0 x = 1) by apply F_0. assert (P1 : P 1 x = x) by (unfold P; rewrite F_1 by lra; field).
  assert (D0 : D 0 x = 1) by apply F_0. assert (D1 : D 1 x = x) by (unfold D; rewrite F_1 by lra; field).
  assert (P2 : 2 * P 2 x = 3 * x * x - 1) by (pose proof (P_rec 0 x) as E; rewrite P0, P1 in E; change (INR 0) with 0 in E; lra).
  assert (P3 : 3 * P 3 x = 5 * x * P 2 x - 2 * x) by (pose proof (P_rec 1 x) as E; rewrite P1 in E; change (INR 1) with 1 in E; lra).
  assert (D2 : 4 * D 2 x = 5 * x * x - 1) by (pose proof (D_rec 0 x) as E; rewrite D0, D1 in E; change (INR 0) with 0 in E; lra).
  induction n as [|n [I1 I2]].
  - change (INR 1) with 1. change (INR 0) with 0. rewrite D0, D1. split; [lra|].
    assert (X : 3 * (2 * P 3 x) = 3 * (4 * x * D 2 x - 2 * x)); [|lra].
    transitivity (5 * x * (2 * P 2 x) - 4 * x); [lra|]. rewrite P2. transitivity (3 * x * (4 * D 2 x) - 6 * x); [rewrite D2; ring|ring].
  - split; [easy|]. pose proof (P_rec (S (S n)) x) as R1. pose proof (D_rec (S n) x) as R2. pose proof (D_rec n x) as R3. rewrite !S_INR in *.
    set (j := INR n) in *. pose proof (pos_INR n) as Hj. fold j in Hj.
    apply Rmult_eq_reg_l with (j + 1 + 1 + 2); [|lra].
    transitivity ((2 * (j + 1 + 1) + 3) * x * (2 * P (S (S (S n))) x) - (j + 1 + 1 + 1) * (2 * P (S (S n)) x)); [lra|]. rewrite I1, I2.
    transitivity (x * ((j + 1 + 4) * D (S (S (S n))) x) * (j + 1 + 1 + 2) - (j + 1 + 1 + 2) * (j + 1 + 1 + 1) * D (S (S n)) x); [|ring].
    rewrite R2.
    replace ((j + 1 + 1 + 2) * (j + 1 + 1 + 1) * D (S (S n)) x) with ((j + 1 + 1 + 1) * ((j + 4) * D (S (S n)) x)) by ring. rewrite R3. ring.
Qed.
(** (1 - x^2) D_n' - 2 x D_n = -2 P_{n+1} *)
Lemma D_ode n x : (1 - x * x) * dF 1 2 n x = 2 * x * D n x - 2 * P (S n) x.
Proof.
  pose proof (rodrigues 0 0 n x ltac:(lra) ltac:(lra)) as E. unfold P, D. replace (0 + 1) with 1 in E by ring. replace (0 + 2) with 2 in E by ring. lra.
Qed.

(** ** Confluent Christoffel-Darboux *)
Definition dp (n : nat) (x : R) : R := kap 1 1 n * dF 1 2 n x.
Lemma jp11 n x : jp 1 1 n x = kap 1 1 n * D n x.
Proof. unfold jp, D. now replace (1 + 1) with 2 by ring. Qed.
Lemma dp_derive n x : is_derive (jp 1 1 n) x (dp n x).
Proof.
  apply (is_derive_ext (fun t => kap 1 1 n * F 1 2 n t)); [intros t; symmetry; apply jp11|]. apply (is_derive_scal (F 1 2 n)), F_dF.
Qed.
Lemma dp_rec n x : jp 1 1 (S n) x + x * dp (S n) x = A 1 1 (S n) * dp (S (S n)) x + bcoef 1 1 (S n) * dp (S n) x + A 1 1 n * dp n x.
Proof.
  assert (H1 : is_derive (fun t => t * jp 1 1 (S n) t) x (jp 1 1 (S n) x + x * dp (S n) x)).
  { replace (jp 1 1 (S n) x + x * dp (S n) x) with (1 * jp 1 1 (S n) x + x * dp (S n) x) by ring.
    apply (is_derive_mult (fun t => t) (jp 1 1 (S n))); [apply @is_derive_id|apply dp_derive|intros; apply Rmult_comm]. }
  assert (H2 : is_derive (fun t => t * jp 1 1 (S n) t) x (A 1 1 (S n) * dp (S (S n)) x + bcoef 1 1 (S n) * dp (S n) x + A 1 1 n * dp n x)).
  { eapply is_derive_ext; [intros t; symmetry; apply jp_recS; lra|]. cbv beta.
    apply (is_derive_plus (fun t => A 1 1 (S n) * jp 1 1 (S (S n)) t + bcoef 1 1 (S n) * jp 1 1 (S n) t)).
    - apply (is_derive_plus (fun t => A 1 1 (S n) * jp 1 1 (S (S n)) t)); apply is_derive_scal, dp_derive.
    - apply is_derive_scal, dp_derive. }
  rewrite <- (is_derive_unique _ _ _ H1). now apply is_derive_unique.
Qed.
Lemma dp_rec0 x : jp 1 1 0 x + x * dp 0 x = A 1 1 0 * dp 1 x + bcoef 1 1 0 * dp 0 x.
Proof.
  assert (H1 : is_derive (fun t => t * jp 1 1 0 t) x (jp 1 1 0 x + x * dp 0 x)).
  { replace (jp 1 1 0 x + x * dp 0 x) with (1 * jp 1 1 0 x + x * dp 0 x) by ring.
    apply (is_derive_mult (fun t => t) (jp 1 1 0)); [apply @is_derive_id|apply dp_derive|intros; apply Rmult_comm]. }
  assert (H2 : is_derive (fun t => t * jp 1 1 0 t) x (A 1 1 0 * dp 1 x + bcoef 1 1 0 * dp 0 x)).
  { eapply is_derive_ext; [intros t; symmetry; apply jp_rec0; lra|]. cbv beta.
    apply (is_derive_plus (fun t => A 1 1 0 * jp 1 1 1 t)); apply is_derive_scal, dp_derive. }
  rewrite <- (is_derive_unique _ _ _ H1). now apply is_derive_unique.
Qed.
Lemma confluent M x : rsum (fun n => jp 1 1 n x * jp 1 1 n x) (S M) = A 1 1 M * (dp (S M) x * jp 1 1 M x - dp M x * jp 1 1 (S M) x).
Proof.
  induction M as [|M IH].
  - cbn [rsum]. pose proof (dp_rec0 x) as E1. pose proof (jp_rec0 1 1 ltac:(lra) ltac:(lra) x) as E2.
    transitivity (jp 1 1 0 x * (A 1 1 0 * dp 1 x + bcoef 1 1 0 * dp 0 x - x * dp 0 x)); [rewrite <- E1; ring|].
    replace (A 1 1 0 * (dp 1 x * jp 1 1 0 x - dp 0 x * jp 1 1 1 x)) with (jp 1 1 0 x * (A 1 1 0 * dp 1 x) - dp 0 x * (A 1 1 0 * jp 1 1 1 x)) by ring.
    replace (A 1 1 0 * jp 1 1 1 x) with (x * jp 1 1 0 x - bcoef 1 1 0 * jp 1 1 0 x) by lra. ring.
  - rewrite rsum_S, IH. pose proof (dp_rec M x) as E1. pose proof (jp_recS 1 1 ltac:(lra) ltac:(lra) M x) as E2.
    replace (jp 1 1 (S M) x * jp 1 1 (S M) x) with (jp 1 1 (S M) x * (A 1 1 (S M) * dp (S (S M)) x + bcoef 1 1 (S M) * dp (S M) x + A 1 1 M * dp M x - x * dp (S M) x)) by (rewrite <- E1; ring).
    replace (A 1 1 (S M) * (dp (S (S M)) x * jp 1 1 (S M) x - dp (S M) x * jp 1 1 (S (S M)) x))
      with (jp 1 1 (S M) x * (A 1 1 (S M) * dp (S (S M)) x) - dp (S M) x * (A 1 1 (S M) * jp 1 1 (S (S M)) x)) by ring.
    replace (A 1 1 (S M) * jp 1 1 (S (S M)) x) with (x * jp 1 1 (S M) x - bcoef 1 1 (S M) * jp 1 1 (S M) x - A 1 1 M * jp 1 1 M x) by lra. ring.
Qed.
Lemma kap11_sq n : kap 1 1 n * kap 1 1 n = (INR n + 1) * (INR n + 2) * (2 * INR n + 3) / 8.
Proof.
  induction n as [|n IH].
  - rewrite kap_sq_0 by lra. rewrite jac_gamma0_exact; [|lra|lra|right; rewrite Rabs_right by lra; lra].
    unfold G0. replace (1 + 1 + 1) with (INR 3) by (cbn; ring). rewrite Rpower_pow by lra. replace (1 + 1 + 2) with (INR 3 + 1) by (cbn; ring).
    replace (1 + 1) with (INR 1 + 1) by (cbn; ring). rewrite !gamma_fact. cbn. field.
  - rewrite kap_sq_S, IH by lra. unfold rho. destruct n as [|n].
    + cbn. field.
    + rewrite !S_INR. pose proof (pos_INR n). field. repeat split; lra.
Qed.
Lemma A_kap11 M : A 1 1 M * kap 1 1 M * kap 1 1 (S M) = (INR M + 1) * (INR M + 2) * (INR M + 3) / 8.
Proof.
  rewrite A_kap by lra. pose proof (kap11_sq (S M)) as K. pose proof (pos_INR M).
  transitivity (kap 1 1 (S M) * kap 1 1 (S M) * (2 * (INR M + 1) * (INR M + 1 + 1) / ((2 * (INR M + 1) + (1 + 1)) * (2 * (INR M + 1) + (1 + 1) + 1)))); [ring|].
  rewrite K, S_INR. field. lra.
Qed.
(** The interior weight at a root of P_N', N = M + 2 *)
Lemma lobatto_weight M x w : -1 < x < 1 -> D (S M) x = 0 -> w * rsum (fun n => jp 1 1 n x * jp 1 1 n x) (S M) = 1 ->
  P (S (S M)) x <> 0 /\ w / (1 - x ^ 2) = 2 / ((INR M + 2) * (INR M + 3) * P (S (S M)) x ^ 2).
Proof.
  intros Hx HD HW. rewrite confluent in HW. unfold dp in HW. rewrite !jp11, HD in HW.
  pose proof (PD M x) as E1. rewrite HD in E1. pose proof (D_ode (S M) x) as E2. rewrite HD in E2. pose proof (pos_INR M) as HM.
  assert (X2 : 0 < 1 - x * x) by nra. set (p := P (S (S M)) x) in *.
  assert (EM : D M x = - 2 / (INR M + 1) * p) by (apply Rmult_eq_reg_l with (INR M + 1); [|lra]; transitivity (- (2 * p)); [lra|field; lra]).
  assert (ED : dF 1 2 (S M) x = - 2 / (1 - x * x) * p) by (apply Rmult_eq_reg_l with (1 - x * x); [|lra]; transitivity (- (2 * p)); [lra|field; lra]).
  rewrite EM, ED in HW.
  replace (A 1 1 M * (kap 1 1 (S M) * (-2 / (1 - x * x) * p) * (kap 1 1 M * (-2 / (INR M + 1) * p)) - kap 1 1 M * dF 1 2 M x * (kap 1 1 (S M) * 0)))
    with (A 1 1 M * kap 1 1 M * kap 1 1 (S M) * (4 / ((1 - x * x) * (INR M + 1)) * (p * p))) in HW by (field; lra).
  rewrite A_kap11 in HW.
  assert (Hp : p <> 0) by (intros E; rewrite E in HW; rewrite !Rmult_0_r in HW; lra). split; [easy|].
  replace (x ^ 2) with (x * x) by ring.
  apply Rmult_eq_reg_l with ((INR M + 2) * (INR M + 3) * (p * p)); [|apply Rmult_integral_contrapositive_currified; nra].
  transitivity (2 * (w * ((INR M + 1) * (INR M + 2) * (INR M + 3) / 8 * (4 / ((1 - x * x) * (INR M + 1)) * (p * p))))); [field; lra|].
  rewrite HW. field. split; [easy|lra].
Qed.

(** ** The code's formulas for alpha = beta = 0 *)
Lemma scaled_legendre n x : scaled_jacobi Rops 0 0 n x = P n x.
Proof.
  assert (E : scaled_jacobi Rops 0 0 n 1 = 1).
  { rewrite scaled_jacobi_1; [|lra|lra|right; rewrite Rabs_right by lra; lra]. unfold binom. rewrite Rplus_0_r, !gamma_fact.
    replace (INR n - INR n + 1) with (INR 0 + 1) by (cbn; ring). rewrite gamma_fact. pose proof (INR_fact_lt_0 n). cbn. field. lra. }
  revert E. unfold scaled_jacobi. cbn [Rops vmul vc]. cbv zeta. set (k := sqrt _).
  rewrite !jacobi_jp by first [lra|apply jac_gamma0_pos; lra]. unfold jp. replace (0 + 0) with 0 by ring. rewrite F_at1.
  intros E. unfold P. rewrite <- Rmult_assoc. replace (k * kap 0 0 n) with 1 by lra. ring.
Qed.
Lemma common00 n : jgl_common 0 0 (INR n) = 2 / ((INR n + 1) * (INR n + 2)).
Proof.
  unfold jgl_common, binom. rewrite !Rplus_0_r.
  replace (0 + 1) with (INR 1) by (cbn; ring). rewrite Rpower_pow by lra.
  replace (0 + 2) with (INR 1 + 1) by (cbn; ring). replace (0 + 3) with (INR 2 + 1) by (cbn; ring).
  replace (INR n + 1 - INR n + 1) with (INR 1 + 1) by (cbn; ring). replace (INR n + 2 - INR n + 1) with (INR 2 + 1) by (cbn; ring).
  replace (INR n + 1 + 1) with (INR (S n) + 1) by (rewrite S_INR; ring). replace (INR n + 2 + 1) with (INR (S (S n)) + 1) by (rewrite !S_INR; ring).
  rewrite !gamma_fact, !fact_simpl, !mult_INR, !S_INR. pose proof (INR_fact_lt_0 n). pose proof (pos_INR n). change (INR (fact 0)) with 1. change (INR 0) with 0.
  cbn [pow]. field. repeat split; lra.
Qed.
Lemma edge00 n : jgl_edge 0 0 (INR n) = 2 / ((INR n + 1) * (INR n + 2)).
Proof. unfold jgl_edge. rewrite common00. replace (0 + 1) with (INR 0 + 1) by (cbn; ring). rewrite gamma_fact. cbn. ring. Qed.
Lemma inner00 n x : -1 < x < 1 -> P (S n) x <> 0 -> jgl_inner 0 0 n x = 2 / ((INR n + 1) * (INR n + 2) * P (S n) x ^ 2).
Proof.
  intros Hx Hp. unfold jgl_inner. cbv zeta. rewrite common00, scaled_legendre, Nat.add_1_r.
  replace (0 + 2) with (INR 1 + 1) by (cbn; ring). rewrite gamma_fact. pose proof (pos_INR n).
  replace ((4 * (INR n + 0 + 1) * (INR n + 0 + 1) + (0 - 0) ^ 2) / (2 * INR n + 0 + 0 + 2) ^ 2) with 1 by (field; lra).
  cbn [fact]. change (INR (1 * 1)) with 1. assert (1 - x ^ 2 <> 0) by (cbn [pow]; nra). field. repeat split; lra.
Qed.
