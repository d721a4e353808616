(** * Normalisation constants, derivative formula and end-point values. *)
From Coq Require Import List Arith Bool ZArith Reals Lia Lra.
From Coquelicot Require Import Coquelicot.
From Verif Require Import Py ModelModes RSum ProofGamma ProofJacobi.
Import ListNotations.
Local Open Scope R_scope.

(** 2^(a+b+1) Gamma(a+1) Gamma(b+1) / Gamma(a+b+2), the integral of the weight. *)
Definition G0 (a b : R) : R :=
  Rpower 2 (a + b + 1) * gamma (a + 1) * gamma (b + 1) / gamma (a + b + 2).

Lemma Rpower_pos x y : 0 < Rpower x y.
Proof. apply exp_pos. Qed.

Lemma gamma_ne x : -1 < x -> x <> 0 -> gamma x <> 0.
Proof.
  intros H H0. destruct (Rlt_le_dec 0 x).
  - apply Rgt_not_eq. now apply gamma_pos.
  - apply Rlt_not_eq. apply gamma_neg. lra.
Qed.

Lemma G0_pos a b : -1 < a -> -1 < b -> 0 < G0 a b.
Proof.
  intros Ha Hb. unfold G0.
  apply Rdiv_lt_0_compat; [|apply gamma_pos; lra].
  repeat apply Rmult_lt_0_compat; first [apply Rpower_pos|apply gamma_pos; lra].
Qed.

Lemma jac_gamma0_G0 a b : -1 < a -> -1 < b -> / 10 ^ 14 <= Rabs (a + b + 1) ->
  jac_gamma0 a b = G0 a b.
Proof.
  intros Ha Hb Hw. unfold jac_gamma0, G0.
  destruct (Rlt_dec _ _) as [H|_]; [lra|].
  assert (Hne : a + b + 1 <> 0).
  { intros E. rewrite E, Rabs_R0 in Hw.
    assert (0 < / 10 ^ 14) by (apply Rinv_0_lt_compat, pow_lt; lra). lra. }
  replace (a + b + 2) with (a + b + 1 + 1) by ring.
  rewrite (gamma_succ (a + b + 1)) by lra.
  field. split; [apply gamma_ne; lra|easy].
Qed.

Lemma jac_gamma0_line a b : -1 < a -> -1 < b -> a + b = -1 -> jac_gamma0 a b = G0 a b.
Proof.
  intros Ha Hb E. unfold jac_gamma0, G0.
  replace (a + b + 1) with 0 by lra. replace (a + b + 2) with 1 by lra.
  rewrite Rabs_R0, gamma_1, Rpower_O by lra.
  destruct (Rlt_dec _ _) as [_|H]; [field|].
  exfalso. apply H. apply Rinv_0_lt_compat, pow_lt; lra.
Qed.

(** Parameters for which the code's [gamma0] is the exact constant. *)
Definition exact_params (a b : R) : Prop := a + b = -1 \/ / 10 ^ 14 <= Rabs (a + b + 1).

Lemma jac_gamma0_exact a b : -1 < a -> -1 < b -> exact_params a b -> jac_gamma0 a b = G0 a b.
Proof. intros Ha Hb [H|H]; [now apply jac_gamma0_line|now apply jac_gamma0_G0]. Qed.

Lemma jac_gamma0_pos a b : -1 < a -> -1 < b -> 0 < jac_gamma0 a b.
Proof.
  intros Ha Hb. destruct (Rle_lt_dec (/ 10 ^ 14) (Rabs (a + b + 1))) as [H|H].
  - rewrite jac_gamma0_G0 by easy. now apply G0_pos.
  - unfold jac_gamma0. destruct (Rlt_dec _ _) as [_|H']; [|lra].
    apply Rmult_lt_0_compat; apply gamma_pos; lra.
Qed.

Lemma exact_params_up a b : -1 < a -> -1 < b -> exact_params (a + 1) (b + 1).
Proof.
  intros Ha Hb. right. rewrite Rabs_right by lra.
  apply Rle_trans with 1; [|lra]. rewrite <- Rinv_1. apply Rinv_le_contravar; lra.
Qed.

Lemma G0_up a b : -1 < a -> -1 < b ->
  G0 (a + 1) (b + 1) = G0 a b * 4 * ((a + 1) * (b + 1)) / ((a + b + 2) * (a + b + 3)).
Proof.
  intros Ha Hb. unfold G0.
  replace (a + 1 + (b + 1) + 1) with (a + b + 1 + 1 + 1) by ring.
  replace (a + 1 + (b + 1) + 2) with (a + b + 2 + 1 + 1) by ring.
  rewrite !Rpower_plus, !Rpower_1 by lra.
  rewrite (gamma_succ (a + 1)), (gamma_succ (b + 1)) by lra.
  rewrite (gamma_succ (a + b + 2 + 1)), (gamma_succ (a + b + 2)) by lra.
  assert (gamma (a + b + 2) <> 0) by (apply gamma_ne; lra).
  field. repeat split; lra.
Qed.

Lemma G0_sym a b : G0 a b = G0 b a.
Proof.
  unfold G0. rewrite (Rplus_comm b a). unfold Rdiv. ring.
Qed.

Lemma jac_gamma0_sym a b : jac_gamma0 a b = jac_gamma0 b a.
Proof.
  unfold jac_gamma0. rewrite (Rplus_comm b a).
  destruct (Rlt_dec _ _); [apply Rmult_comm|]. unfold Rdiv. ring.
Qed.

Lemma kap_pos a b n : -1 < a -> -1 < b -> 0 < kap a b n.
Proof.
  intros Ha Hb. induction n as [|n IH]; cbn [kap].
  - apply Rdiv_lt_0_compat; [lra|]. now apply sqrt_lt_R0, jac_gamma0_pos.
  - pose proof (pos_INR n). pose proof (rr_pos a b Ha Hb n).
    apply Rdiv_lt_0_compat; [|easy]. apply Rmult_lt_0_compat; [easy|].
    apply Rdiv_lt_0_compat; lra.
Qed.

Lemma kap_sq_0 a b : -1 < a -> -1 < b -> kap a b 0 * kap a b 0 = / jac_gamma0 a b.
Proof.
  intros Ha Hb. cbn [kap]. pose proof (jac_gamma0_pos a b Ha Hb) as H.
  rewrite <- (sqrt_sqrt (jac_gamma0 a b)) at 3 by lra.
  pose proof (sqrt_lt_R0 _ H). field. lra.
Qed.

Lemma kap_sq_S a b n : -1 < a -> -1 < b ->
  kap a b (S n) * kap a b (S n)
  = kap a b n * kap a b n * ((INR n + 1 + a) / (INR n + 1)) ^ 2 / rho a b n.
Proof.
  intros Ha Hb. cbn [kap]. rewrite <- (rr_sq a b Ha Hb n).
  pose proof (pos_INR n). pose proof (rr_pos a b Ha Hb n). field. split; lra.
Qed.

Lemma kap_up a b n : -1 < a -> -1 < b -> exact_params a b ->
  kap a b (S n) * kap a b (S n) * ((INR n + 1) * (INR n + (a + b) + 2))
  = 4 * (a + 1) * (a + 1) * (kap (a + 1) (b + 1) n * kap (a + 1) (b + 1) n).
Proof.
  intros Ha Hb He. induction n as [|n IH].
  - rewrite kap_sq_S, !kap_sq_0, (jac_gamma0_exact (a + 1)), (jac_gamma0_exact a)
      by first [easy|lra|now apply exact_params_up].
    rewrite G0_up by easy. unfold rho. simpl INR.
    pose proof (G0_pos a b Ha Hb). field. repeat split; lra.
  - rewrite kap_sq_S by easy. rewrite (kap_sq_S (a + 1)) by lra.
    pose proof (pos_INR n) as Hn.
    assert (E : kap (a + 1) (b + 1) n * kap (a + 1) (b + 1) n
                = kap a b (S n) * kap a b (S n) * ((INR n + 1) * (INR n + (a + b) + 2))
                  / (4 * (a + 1) * (a + 1))).
    { rewrite IH. field. lra. }
    rewrite E. rewrite !S_INR. unfold rho. rewrite S_INR.
    set (K := kap a b (S n)). destruct n as [|n].
    + simpl INR. field. repeat split; lra.
    + rewrite !S_INR in *. pose proof (pos_INR n). field. repeat split; lra.
Qed.

Theorem grad_jacobi_correct a b n x : -1 < a -> -1 < b -> exact_params a b ->
  is_derive (jacobi Rops a b n) x (grad_jacobi Rops a b n x).
Proof.
  intros Ha Hb He.
  apply is_derive_ext with (jp a b n).
  { intros t. symmetry. apply jacobi_jp; try easy. now apply jac_gamma0_pos. }
  destruct n as [|n]; unfold grad_jacobi; cbn [Rops vmul vc].
  - rewrite Rmult_0_l. unfold jp. apply is_derive_ext with (fun _ => kap a b 0 * 1).
    + intros t. now rewrite F_0.
    + apply @is_derive_const.
  - rewrite jacobi_jp by first [lra|apply jac_gamma0_pos; lra].
    unfold jp at 2. replace (a + 1 + (b + 1)) with (a + b + 2) by ring.
    assert (E : sqrt (INR (S n) * (INR (S n) + a + b + 1)) * kap (a + 1) (b + 1) n
                = kap a b (S n) * ((INR n + 1) * (INR n + (a + b) + 2) / (2 * (a + 1)))).
    { pose proof (pos_INR n) as Hn. rewrite S_INR.
      set (w := (INR n + 1) * (INR n + 1 + a + b + 1)).
      assert (Hw : 0 < w) by (unfold w; apply Rmult_lt_0_compat; lra).
      pose proof (kap_pos (a + 1) (b + 1) n ltac:(lra) ltac:(lra)) as K1.
      pose proof (kap_pos a b (S n) Ha Hb) as K2.
      pose proof (kap_up a b n Ha Hb He) as HK.
      replace ((INR n + 1) * (INR n + (a + b) + 2)) with w in * by (unfold w; ring).
      pose proof (sqrt_lt_R0 w Hw) as Hs. pose proof (sqrt_sqrt w ltac:(lra)) as Hss.
      assert (E : sqrt w * kap a b (S n) = 2 * (a + 1) * kap (a + 1) (b + 1) n).
      { apply Rsqr_inj; try nra. unfold Rsqr.
        transitivity (sqrt w * sqrt w * (kap a b (S n) * kap a b (S n))); [ring|].
        rewrite Hss. transitivity (kap a b (S n) * kap a b (S n) * w); [ring|].
        rewrite HK. ring. }
      apply Rmult_eq_reg_r with (2 * (a + 1)); [|lra].
      transitivity (sqrt w * (2 * (a + 1) * kap (a + 1) (b + 1) n)); [ring|].
      rewrite <- E. transitivity (sqrt w * sqrt w * kap a b (S n)); [ring|].
      rewrite Hss. field. lra. }
    rewrite <- Rmult_assoc, E, Rmult_assoc.
    apply (is_derive_scal (F a (a + b) (S n))).
    now apply F_deriv.
Qed.

(** ** End-point values *)
Lemma rho_sym a b n : rho a b n = rho b a n.
Proof. destruct n; unfold rho; rewrite (Rplus_comm b a); unfold Rdiv; ring. Qed.

Lemma A_sym a b n : A a b n = A b a n.
Proof. destruct n; unfold A, rr; rewrite (rho_sym b a), (Rplus_comm b a); reflexivity. Qed.

Lemma jp_sym a b n x : -1 < a -> -1 < b -> jp a b n (- x) = (-1) ^ n * jp b a n x.
Proof.
  intros Ha Hb.
  cut (jp a b n (- x) = (-1) ^ n * jp b a n x /\ jp a b (S n) (- x) = (-1) ^ (S n) * jp b a (S n) x).
  { easy. }
  induction n as [|n [IH0 IH1]].
  - split.
    + unfold jp. rewrite !F_0. cbn [kap pow]. rewrite jac_gamma0_sym. ring.
    + unfold jp. rewrite !F_1 by easy. cbn [kap pow].
      unfold rr. rewrite (rho_sym b a), (jac_gamma0_sym b a).
      pose proof (rr_pos a b Ha Hb 0) as Hr. unfold rr in Hr. simpl INR.
      pose proof (sqrt_lt_R0 _ (jac_gamma0_pos a b Ha Hb)). field. repeat split; lra.
  - split; [easy|].
    pose proof (jp_rec a b Ha Hb n (- x)) as H1. pose proof (jp_rec b a Hb Ha n x) as H2.
    rewrite IH0, IH1 in H1. rewrite <- (A_sym a b (S n)), <- (A_sym a b n) in H2.
    assert (Hbn : jac_bnew b a (S n) = - jac_bnew a b (S n)).
    { unfold jac_bnew. rewrite (Rplus_assoc _ b a), (Rplus_comm b a), <- Rplus_assoc.
      unfold Rdiv. ring. }
    rewrite Hbn in H2.
    pose proof (A_pos a b Ha Hb (S n)) as HA.
    apply Rmult_eq_reg_l with (A a b (S n)); [|lra].
    cbn [pow] in *.
    transitivity ((-1) * (-1) * (-1) ^ n * (A a b (S n) * jp b a (S (S n)) x)); [|ring].
    replace (A a b (S n) * jp b a (S (S n)) x)
      with ((x - - jac_bnew a b (S n)) * jp b a (S n) x - A a b n * jp b a n x) by lra.
    replace (A a b (S n) * jp a b (S (S n)) (- x))
      with ((- x - jac_bnew a b (S n)) * (-1 * (-1) ^ n * jp b a (S n) x)
            - A a b n * ((-1) ^ n * jp b a n x)) by lra.
    ring.
Qed.

(** The classical norm (the code's [scaling] formula away from n = 0). *)
Definition scal (a b : R) (n : nat) : R :=
  Rpower 2 (a + b + 1) / (2 * INR n + a + b + 1)
  * gamma (INR n + a + 1) * gamma (INR n + b + 1)
  / gamma (INR n + a + b + 1) / INR (fact n).

Lemma kap_scal a b n : -1 < a -> -1 < b -> exact_params a b ->
  (1 <= n)%nat \/ a + b + 1 <> 0 ->
  kap a b n * kap a b n * scal a b n
  = (gamma (INR n + a + 1) / (INR (fact n) * gamma (a + 1))) ^ 2.
Proof.
  intros Ha Hb He Hn.
  assert (H0 : a + b + 1 <> 0 ->
     kap a b 0 * kap a b 0 * scal a b 0
     = (gamma (INR 0 + a + 1) / (INR (fact 0) * gamma (a + 1))) ^ 2).
  { intros Hs. rewrite kap_sq_0, jac_gamma0_exact by easy. unfold scal, G0. cbn [fact].
    change (INR 1) with 1. change (INR 0) with 0. rewrite !Rplus_0_l, Rmult_0_r, Rplus_0_l.
    replace (a + b + 2) with (a + b + 1 + 1) by ring.
    rewrite (gamma_succ (a + b + 1)) by lra.
    pose proof (gamma_ne (a + b + 1) ltac:(lra) Hs).
    pose proof (gamma_pos (a + 1) ltac:(lra)). pose proof (gamma_pos (b + 1) ltac:(lra)).
    pose proof (Rpower_pos 2 (a + b + 1)).
    field. repeat split; lra. }
  assert (H1 : kap a b 1 * kap a b 1 * scal a b 1
     = (gamma (INR 1 + a + 1) / (INR (fact 1) * gamma (a + 1))) ^ 2).
  { rewrite kap_sq_S, kap_sq_0, jac_gamma0_exact by easy. unfold scal, G0, rho. cbn [fact].
    change (INR (1 * 1)) with 1. change (INR 1) with 1. change (INR 0) with 0.
    replace (1 + a + 1) with (a + 1 + 1) by ring. replace (1 + b + 1) with (b + 1 + 1) by ring.
    replace (1 + a + b + 1) with (a + b + 2) by ring.
    rewrite (gamma_succ (a + 1)), (gamma_succ (b + 1)) by lra.
    pose proof (gamma_pos (a + b + 2) ltac:(lra)).
    pose proof (gamma_pos (a + 1) ltac:(lra)). pose proof (gamma_pos (b + 1) ltac:(lra)).
    pose proof (Rpower_pos 2 (a + b + 1)).
    field. repeat split; lra. }
  destruct n as [|n]; [destruct Hn as [Hn|Hn]; [lia|auto]|]. clear Hn.
  induction n as [|n IH]; [easy|].
  rewrite kap_sq_S by easy.
  transitivity (kap a b (S n) * kap a b (S n) * scal a b (S n)
    * (((INR (S n) + 1 + a) / (INR (S n) + 1)) ^ 2)).
  - assert (E : scal a b (S (S n)) = scal a b (S n) * rho a b (S n)); [|rewrite E].
    2:{ pose proof (rho_pos a b Ha Hb (S n)). pose proof (pos_INR (S n)). field. lra. }
    unfold scal, rho.
    change (fact (S (S n))) with (S (S n) * fact (S n))%nat. rewrite mult_INR, (S_INR (S n)).
    set (j := INR (S n)). assert (Hj : 1 <= j) by (unfold j; rewrite S_INR; generalize (pos_INR n); lra).
    replace (j + 1 + a + 1) with (j + a + 1 + 1) by ring.
    replace (j + 1 + b + 1) with (j + b + 1 + 1) by ring.
    replace (j + 1 + a + b + 1) with (j + a + b + 1 + 1) by ring.
    rewrite (gamma_succ (j + a + 1)), (gamma_succ (j + b + 1)), (gamma_succ (j + a + b + 1)) by lra.
    pose proof (gamma_pos (j + a + b + 1) ltac:(lra)).
    pose proof (INR_fact_lt_0 (S n)).
    field. repeat split; lra.
  - rewrite IH. 
    change (fact (S (S n))) with (S (S n) * fact (S n))%nat. rewrite mult_INR, (S_INR (S n)).
    set (j := INR (S n)). assert (Hj : 1 <= j) by (unfold j; rewrite S_INR; generalize (pos_INR n); lra).
    replace (j + 1 + a + 1) with (j + a + 1 + 1) by ring.
    rewrite (gamma_succ (j + a + 1)) by lra.
    pose proof (gamma_pos (a + 1) ltac:(lra)).
    pose proof (INR_fact_lt_0 (S n)).
    field. repeat split; lra.
Qed.

Lemma scal_pos a b n : -1 < a -> -1 < b ->
  (1 <= n)%nat \/ a + b + 1 <> 0 -> 0 < scal a b n.
Proof.
  intros Ha Hb Hn. unfold scal.
  pose proof (gamma_pos (INR n + a + 1) ltac:(generalize (pos_INR n); lra)).
  pose proof (gamma_pos (INR n + b + 1) ltac:(generalize (pos_INR n); lra)).
  pose proof (Rpower_pos 2 (a + b + 1)).
  pose proof (INR_fact_lt_0 n).
  apply Rdiv_lt_0_compat; [|easy].
  assert (Hp : 0 < (2 * INR n + a + b + 1) * gamma (INR n + a + b + 1)).
  { destruct (Rlt_le_dec 0 (INR n + a + b + 1)) as [Hp|Hp].
    - apply Rmult_lt_0_compat; [generalize (pos_INR n); lra|now apply gamma_pos].
    - destruct n as [|n]; [|rewrite S_INR in Hp; generalize (pos_INR n); lra].
      simpl INR in *. destruct Hn as [Hn|Hn]; [lia|].
      pose proof (gamma_neg (0 + a + b + 1) ltac:(lra)). nra. }
  assert (H3 : 2 * INR n + a + b + 1 <> 0).
  { intros E. rewrite E in Hp. lra. }
  assert (H4 : gamma (INR n + a + b + 1) <> 0).
  { intros E. rewrite E in Hp. lra. }
  match goal with |- 0 < ?t => replace t with
    (Rpower 2 (a + b + 1) * gamma (INR n + a + 1) * gamma (INR n + b + 1)
     / ((2 * INR n + a + b + 1) * gamma (INR n + a + b + 1))) by (field; split; easy) end.
  apply Rdiv_lt_0_compat; [|easy]. repeat apply Rmult_lt_0_compat; easy.
Qed.

Definition scaled_exact (a b : R) : Prop := a + b = -1 \/ 100 * / 2 ^ 52 <= Rabs (a + b + 1).

Lemma scaled_exact_params a b : scaled_exact a b -> exact_params a b.
Proof.
  intros [H|H]; [now left|right]. eapply Rle_trans; [|exact H]. lra.
Qed.

Lemma scaled_jacobi_1 a b n : -1 < a -> -1 < b -> scaled_exact a b ->
  scaled_jacobi Rops a b n 1 = binom (INR n + a) (INR n).
Proof.
  intros Ha Hb He. pose proof (scaled_exact_params a b He) as He'.
  unfold scaled_jacobi, binom. cbn [Rops vmul vc]. cbv zeta.
  rewrite jacobi_jp by first [easy|now apply jac_gamma0_pos].
  unfold jp. rewrite F_at1 by easy. rewrite Rmult_1_r.
  pose proof (kap_pos a b n Ha Hb) as Hk.
  replace (INR n + a - INR n + 1) with (a + 1) by ring.
  rewrite gamma_fact.
  pose proof (gamma_pos (a + 1) ltac:(lra)) as Hg.
  pose proof (gamma_pos (b + 1) ltac:(lra)) as Hg'.
  assert (Hg2 : 0 < gamma (INR n + a + 1)) by (apply gamma_pos; generalize (pos_INR n); lra).
  pose proof (INR_fact_lt_0 n) as Hf.
  destruct (andb _ _) eqn:Ec.
  - apply andb_true_iff in Ec. destruct Ec as [En Ew]. apply Nat.eqb_eq in En. subst n.
    destruct (Rlt_dec _ _) as [Hw|Hw]; [|easy].
    destruct He as [He|He]; [|lra].
    cbn [kap]. rewrite jac_gamma0_exact by easy. unfold G0.
    replace (a + b + 1) with 0 by lra. replace (a + b + 2) with 1 by lra.
    rewrite gamma_1, Rpower_O by lra. cbn [fact]. change (INR 0) with 0. change (INR 1) with 1.
    rewrite !Rplus_0_l. rewrite !Rdiv_1, !Rmult_1_l.
    pose proof (sqrt_lt_R0 (gamma (a + 1) * gamma (b + 1)) ltac:(nra)). field. split; lra.
  - assert (Hn : (1 <= n)%nat \/ a + b + 1 <> 0).
    { destruct n as [|n]; [right|left; lia]. intros E.
      simpl in Ec. rewrite E, Rabs_R0 in Ec.
      destruct (Rlt_dec 0 _) as [|Hc] in Ec; [easy|]. apply Hc. lra. }
    pose proof (kap_scal a b n Ha Hb He' Hn) as Hks.
    fold (scal a b n). pose proof (scal_pos a b n Ha Hb Hn) as Hs.
    pose proof (sqrt_lt_R0 _ Hs) as Hs'.
    apply Rsqr_inj.
    + nra.
    + apply Rlt_le, Rdiv_lt_0_compat; [easy|nra].
    + unfold Rsqr. transitivity (kap a b n * kap a b n * (sqrt (scal a b n) * sqrt (scal a b n))); [ring|].
      rewrite sqrt_sqrt by lra. rewrite Hks. ring.
Qed.

Lemma scaled_jacobi_m1 a b n : -1 < a -> -1 < b -> scaled_exact a b ->
  scaled_jacobi Rops a b n (-1) = (-1) ^ n * binom (INR n + b) (INR n).
Proof.
  intros Ha Hb He.
  rewrite <- (scaled_jacobi_1 b a n Hb Ha).
  2:{ unfold scaled_exact in *. now rewrite (Rplus_comm b a). }
  unfold scaled_jacobi. cbn [Rops vmul vc]. cbv zeta.
  rewrite !jacobi_jp by first [easy|now apply jac_gamma0_pos].
  replace (-1) with (- (1)) at 1 by ring. rewrite jp_sym by easy.
  rewrite (Rplus_comm b a).
  match goal with |- sqrt ?u * _ = _ * (sqrt ?v * _) => replace v with u; [ring|] end.
  replace (INR n + b + a + 1) with (INR n + a + b + 1) by ring.
  replace (2 * INR n + b + a + 1) with (2 * INR n + a + b + 1) by ring.
  destruct (andb _ _); unfold Rdiv; ring.
Qed.
