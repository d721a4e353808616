(** * The Chebyshev rule (alpha = beta = -1/2) *)
From Coquelicot Require Import Coquelicot.
From Coq Require Import List Arith Bool ZArith QArith Reals Lra Lia.
From Verif Require Import Py RSum PyToolsModel ModelNd ModelShapes ModelNodes ModelModes ModelQuad ModelGauss.
From Verif Require Import SpecPoly ProofJacobi ProofJacobi2 ProofJacobiOrtho ProofBetaReal ProofQuad ProofPoly1 ProofGauss ProofGaussExist ProofGauss2.
Import ListNotations.
Local Open Scope R_scope.

Local Notation h := (- (1 / 2)).

Lemma cheb_weight x : -1 < x < 1 -> wr h h x = / sqrt (1 - x²).
Proof.
  intros Hx. unfold wr. rewrite Rpower_mult_distr by lra. replace ((1 - x) * (1 + x)) with (1 - x²) by (unfold Rsqr; ring).
  rewrite Rpower_Ropp. replace (1 / 2) with (/ 2) by field. rewrite Rpower_sqrt; [reflexivity|]. unfold Rsqr. nra.
Qed.
Lemma asin_lim : filterlim asin (at_right (-1)) (locally (- (PI / 2))) /\ filterlim asin (at_left 1) (locally (PI / 2)).
Proof.
  assert (L : filterlim asin (at_left 1) (locally (PI / 2))).
  { apply filterlim_locally. intros eps. 
    set (d := Rmin eps (PI / 2)). pose proof PI_RGT_0. pose proof (cond_pos eps) as He.
    assert (Hd : 0 < d <= PI / 2) by (unfold d; split; [apply Rmin_pos; lra|apply Rmin_r]).
    assert (Hs : sin (PI / 2 - d) < 1). { rewrite sin_shift. rewrite <- cos_0. apply cos_decreasing_1; lra. }
    assert (Hs0 : 0 <= sin (PI / 2 - d)) by (apply sin_ge_0; lra).
    exists (mkposreal (1 - sin (PI / 2 - d)) ltac:(lra)). intros y By Hy. cbn in By.
    assert (By' : sin (PI / 2 - d) < y).
    { unfold ball in By; cbn in By. unfold AbsRing_ball, abs, minus, plus, opp in By; cbn in By. apply Rabs_lt_between in By. lra. }
    assert (A1 := asin_bound y).
    assert (A2 : PI / 2 - d < asin y).
    { destruct (Rlt_dec (PI / 2 - d) (asin y)); [easy|exfalso]. assert (sin (asin y) <= sin (PI / 2 - d)) by (apply sin_incr_1; lra).
      rewrite sin_asin in H0 by lra. lra. }
    unfold ball; cbn. unfold AbsRing_ball, abs, minus, plus, opp; cbn. apply Rabs_lt_between.
    assert (d <= eps) by apply Rmin_l. lra. }
  split; [|exact L].
  assert (E : filterlim (fun x => - asin (- x)) (at_right (-1)) (locally (- (PI / 2)))).
  { eapply filterlim_comp; [|apply (filterlim_opp (PI / 2))]. eapply filterlim_comp; [|exact L].
    intros P (d & HP). exists d. intros y By Hy. apply HP; [|lra].
    unfold ball in *; cbn in *. unfold AbsRing_ball, abs, minus, plus, opp in *; cbn in *.
    replace (- y + - (1)) with (- (y + - -1)) by ring. now rewrite Rabs_Ropp. }
  eapply filterlim_ext; [|exact E]. intros x. cbv beta. rewrite asin_opp. ring.
Qed.
Lemma cheb_mass : G0 h h = PI.
Proof.
  apply (isG_unique (wr h h)); [apply mass_G0; lra|].
  destruct asin_lim as [L1 L2].
  eapply isG_eq; [apply (isG_FTC asin (wr h h) (- (PI / 2)) (PI / 2))|lra]; [| |exact L1|exact L2].
  - intros x Hx. rewrite cheb_weight by easy. apply is_derive_Reals. replace (/ sqrt (1 - x²)) with (1 / sqrt (1 - x²)) by (unfold Rdiv; ring).
    rewrite <- (derive_pt_asin x Hx). apply derive_pt_eq_1 with (derivable_pt_asin x Hx). reflexivity.
  - intros x Hx. now apply wr_cont.
Qed.
Lemma cheb_bcoef n : bcoef h h n = 0.
Proof. destruct n as [|n]; unfold bcoef, jac_bnew; cbv zeta; [field|]. unfold Rdiv. replace (- (h * h - h * h)) with 0 by (unfold Rdiv; ring). ring. Qed.
Lemma cheb_A0 : A h h 0 * sqrt 2 = 1.
Proof.
  unfold A, rr, rho. replace (2 / (h + h + 2)) with 2 by field. replace ((h + 1) * (h + 1) / (h + h + 3)) with (/ 8) by field.
  rewrite Rmult_assoc, <- sqrt_mult by lra. replace (/ 8 * 2) with ((/ 2) * (/ 2)) by field. rewrite sqrt_square by lra. field.
Qed.
Lemma cheb_AS n : A h h (S n) = 1 / 2.
Proof.
  unfold A, rr, rho. set (j := INR (S n)). assert (0 < j) by (unfold j; apply lt_0_INR; lia).
  replace ((2 * j + (h + h) + 1) * (j + 1 + h) * (j + 1 + h) / ((2 * j + (h + h) + 3) * (j + 1) * (j + (h + h) + 1)))
    with (((j + 1 / 2) / (j + 1)) * ((j + 1 / 2) / (j + 1))) by (field; repeat split; lra).
  rewrite sqrt_square by (apply Rlt_le, Rdiv_lt_0_compat; lra). field. repeat split; lra.
Qed.
Lemma cheb_kap0 : kap h h 0 = 1 / sqrt PI.
Proof. cbn [kap]. rewrite jac_gamma0_exact; [now rewrite cheb_mass|lra|lra|left; lra]. Qed.
Lemma cheb_jp t n : jp h h (S n) (cos t) = sqrt 2 / sqrt PI * cos (INR (S n) * t).
Proof.
  assert (P2 : 0 < sqrt 2) by (apply sqrt_lt_R0; lra). assert (PP : 0 < sqrt PI) by (apply sqrt_lt_R0, PI_RGT_0).
  assert (SS : sqrt 2 * sqrt 2 = 2) by (apply sqrt_sqrt; lra).
  assert (Ha : -1 < h) by lra.
  pose proof cheb_A0 as A0. assert (A0p : A h h 0 = / sqrt 2) by (apply Rmult_eq_reg_r with (sqrt 2); [rewrite A0; field; lra|lra]).
  assert (J1 : jp h h 1 (cos t) = sqrt 2 / sqrt PI * cos t).
  { pose proof (jp_rec0 h h Ha Ha (cos t)) as E. rewrite jp0, cheb_bcoef, cheb_kap0, A0p in E.
    apply Rmult_eq_reg_l with (/ sqrt 2); [|apply Rinv_neq_0_compat; lra].
    transitivity (cos t * (1 / sqrt PI)); [lra|]. field. lra. }
  assert (P : jp h h (S n) (cos t) = sqrt 2 / sqrt PI * cos (INR (S n) * t) /\ jp h h (S (S n)) (cos t) = sqrt 2 / sqrt PI * cos (INR (S (S n)) * t)); [|easy].
  induction n as [|n [I1 I2]].
  - split; [change (INR 1) with 1; rewrite Rmult_1_l; exact J1|].
    pose proof (jp_recS h h Ha Ha 0 (cos t)) as E. rewrite J1, cheb_bcoef, cheb_AS, A0p, jp0, cheb_kap0 in E.
    replace (INR 2 * t) with (2 * t) by (cbn; ring). rewrite cos_2a_cos.
    apply Rmult_eq_reg_l with (1 / 2); [|lra].
    transitivity (cos t * (sqrt 2 / sqrt PI * cos t) - / sqrt 2 * (1 / sqrt PI)); [lra|].
    replace (/ sqrt 2) with (sqrt 2 / 2) by (apply Rmult_eq_reg_r with (sqrt 2); [rewrite Rinv_l by lra; unfold Rdiv; lra|lra]).
    field. lra.
  - split; [easy|].
    pose proof (jp_recS h h Ha Ha (S n) (cos t)) as E. rewrite I1, I2, cheb_bcoef, !cheb_AS in E.
    apply Rmult_eq_reg_l with (1 / 2); [|lra].
    transitivity (cos t * (sqrt 2 / sqrt PI * cos (INR (S (S n)) * t)) - 1 / 2 * (sqrt 2 / sqrt PI * cos (INR (S n) * t))); [lra|].
    replace (INR (S (S (S n))) * t) with (INR (S (S n)) * t + t) by (rewrite (S_INR (S (S n))); ring).
    replace (INR (S n) * t) with (INR (S (S n)) * t - t) by (rewrite (S_INR (S n)); ring).
    rewrite cos_plus, cos_minus. field. lra.
Qed.
Lemma cos2_sum t N : sin t * rsum (fun n => cos (2 * (INR (S n) * t))) N = sin (INR N * t) * cos (INR (S N) * t).
Proof.
  induction N as [|N IH]; [cbn [rsum]; change (INR 0) with 0; rewrite !Rmult_0_l, sin_0; ring|].
  rewrite rsum_S, Rmult_plus_distr_l, IH.
  set (f := INR (S N) * t). replace (INR N * t) with (f - t) by (unfold f; rewrite S_INR; ring).
  replace (INR (S (S N)) * t) with (f + t) by (unfold f; rewrite (S_INR (S N)); ring).
  rewrite sin_minus, cos_plus, cos_2a. ring.
Qed.
Lemma cheb_christoffel t N : sin t <> 0 -> cos (INR (S N) * t) = 0 ->
  rsum (fun n => jp h h n (cos t) * jp h h n (cos t)) (S N) = INR (S N) / PI.
Proof.
  intros Hs Hc. rewrite rsum_shift, jp0, cheb_kap0.
  assert (PP : 0 < sqrt PI) by (apply sqrt_lt_R0, PI_RGT_0). assert (PS : sqrt PI * sqrt PI = PI) by (apply sqrt_sqrt, Rlt_le, PI_RGT_0).
  pose proof PI_RGT_0.
  rewrite (rsum_ext _ (fun n => / PI * 1 + / PI * cos (2 * (INR (S n) * t)))).
  - rewrite rsum_plus, rsum_scal, rsum_const. rewrite rsum_scal.
    assert (K : rsum (fun n => cos (2 * (INR (S n) * t))) N = 0).
    { apply Rmult_eq_reg_l with (sin t); [|easy]. rewrite cos2_sum, Hc. ring. }
    rewrite K. replace (1 / sqrt PI * (1 / sqrt PI)) with (/ PI) by (rewrite <- PS at 1; field; lra). rewrite S_INR. field. lra.
  - intros n _. rewrite cheb_jp, cos_2a_cos.
    transitivity (sqrt 2 * sqrt 2 / (sqrt PI * sqrt PI) * (cos (INR (S n) * t) * cos (INR (S n) * t))); [field; lra|].
    rewrite PS, sqrt_sqrt by lra. field. lra.
Qed.
Definition cheb_theta (N i : nat) : R := PI / (2 * (INR N + 1)) * (2 * INR (S N - i) - 1).
Lemma cheb_theta_range N i : (i < S N)%nat -> 0 < cheb_theta N i < PI.
Proof.
  intros Hi. unfold cheb_theta. pose proof PI_RGT_0. pose proof (pos_INR N).
  assert (1 <= INR (S N - i)) by (apply (le_INR 1); lia). assert (INR (S N - i) <= INR N + 1) by (rewrite <- S_INR; apply le_INR; lia).
  assert (0 < PI / (2 * (INR N + 1))) by (apply Rdiv_lt_0_compat; lra). split; [nra|].
  apply Rmult_lt_reg_r with (2 * (INR N + 1)); [lra|].
  replace (PI / (2 * (INR N + 1)) * (2 * INR (S N - i) - 1) * (2 * (INR N + 1))) with (PI * (2 * INR (S N - i) - 1)) by (field; lra). nra.
Qed.
Lemma cheb_theta_root N i : (i < S N)%nat -> cos (INR (S N) * cheb_theta N i) = 0.
Proof.
  intros Hi. apply cos_eq_0_1. exists (Z.of_nat (N - i)). rewrite <- INR_IZR_INZ. unfold cheb_theta. pose proof (pos_INR N).
  replace (S N - i)%nat with (S (N - i)) by lia. rewrite !S_INR. field. lra.
Qed.
Lemma cheb_theta_mono N i j : (i < j < S N)%nat -> cos (cheb_theta N i) < cos (cheb_theta N j).
Proof.
  intros H. pose proof (cheb_theta_range N i ltac:(lia)). pose proof (cheb_theta_range N j ltac:(lia)).
  apply cos_decreasing_1; try lra. unfold cheb_theta. pose proof PI_RGT_0. pose proof (pos_INR N).
  assert (0 < PI / (2 * (INR N + 1))) by (apply Rdiv_lt_0_compat; lra). apply Rmult_lt_compat_l; [easy|].
  assert (INR (S N - j) < INR (S N - i)) by (apply lt_INR; lia). lra.
Qed.
Lemma cheb_nodes N : map (fun k => cos (PI / (2 * (INR N + 1)) * (2 * INR k - 1))) (rev (seq 1 (N + 1)))
  = map (fun i => cos (cheb_theta N i)) (seq 0 (S N)).
Proof.
  rewrite Nat.add_1_r. apply (nth_ext _ _ 0 0).
  - now rewrite !map_length, rev_length, !seq_length.
  - intros i Hi. rewrite map_length, rev_length, seq_length in Hi.
    rewrite (nth_indep _ 0 ((fun k => cos (PI / (2 * (INR N + 1)) * (2 * INR k - 1))) 0%nat)) by (now rewrite map_length, rev_length, seq_length).
    rewrite (map_nth (fun k => cos (PI / (2 * (INR N + 1)) * (2 * INR k - 1)))).
    rewrite (nth_indep _ 0 ((fun i => cos (cheb_theta N i)) 0%nat)) by (now rewrite map_length, seq_length).
    rewrite (map_nth (fun i => cos (cheb_theta N i))), rev_nth, !seq_nth, seq_length by (rewrite ?seq_length; lia). unfold cheb_theta.
    replace (1 + (S N - S i))%nat with (S N - (0 + i))%nat by lia. reflexivity.
Qed.
