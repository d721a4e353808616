(** * Clenshaw-Curtis and Fejer rules: trigonometric sums, Chebyshev polynomials *)
From Coquelicot Require Import Coquelicot.
From Coq Require Import List Arith Bool ZArith QArith Reals Lra Lia.
From Verif Require Import Py RSum ModelNd ModelShapes ModelNodes ModelModes ModelQuad ModelGauss ModelClenshaw.
From Verif Require Import ProofMonomial ProofPoly1.
Import ListNotations.
Local Open Scope R_scope.

(** ** Sums of cosines *)
Lemma cos_sum a c n : 2 * sin (a / 2) * rsum (fun k => cos (INR k * a + c)) n = sin (INR n * a + c - a / 2) - sin (c - a / 2).
Proof.
  induction n as [|n IH].
  - cbn [rsum]. change (INR 0) with 0. replace (0 * a + c - a / 2) with (c - a / 2) by ring. ring.
  - rewrite rsum_S, Rmult_plus_distr_l, IH, S_INR.
    replace ((INR n + 1) * a + c - a / 2) with ((INR n * a + c) + a / 2) by field.
    replace (INR n * a + c - a / 2) with ((INR n * a + c) - a / 2) by ring.
    rewrite sin_plus, !sin_minus. ring.
Qed.
Lemma sin_kPI k : sin (INR k * PI) = 0.
Proof.
  induction k as [|k IH]; [change (INR 0) with 0; rewrite Rmult_0_l; apply sin_0|].
  rewrite S_INR. replace ((INR k + 1) * PI) with (INR k * PI + PI) by ring. rewrite neg_sin, IH. ring.
Qed.
Lemma cos_kPI k : cos (INR k * PI) = (-1) ^ k.
Proof.
  induction k as [|k IH]; [change (INR 0) with 0; rewrite Rmult_0_l; apply cos_0|].
  rewrite S_INR. replace ((INR k + 1) * PI) with (INR k * PI + PI) by ring. rewrite neg_cos, IH. cbn [pow]. ring.
Qed.
Lemma cos_2kPI k : cos (2 * INR k * PI) = 1.
Proof. replace (2 * INR k * PI) with (INR (2 * k) * PI) by (rewrite mult_INR; reflexivity). rewrite cos_kPI. apply pow_1_even. Qed.
Lemma sin_2kPI k : sin (2 * INR k * PI) = 0.
Proof. replace (2 * INR k * PI) with (INR (2 * k) * PI) by (rewrite mult_INR; reflexivity). apply sin_kPI. Qed.

Section Sums.
  Context (n : nat) (Hn : (1 <= n)%nat).
  Let nR := INR n.
  Lemma nR_pos : 0 < nR. Proof. apply lt_0_INR. lia. Qed.
  Lemma sin_frac l : (0 < l < n)%nat -> 0 < sin (INR l * PI / nR).
  Proof.
    intros H. pose proof nR_pos. pose proof PI_RGT_0. apply sin_gt_0.
    - apply Rdiv_lt_0_compat; [|easy]. apply Rmult_lt_0_compat; [apply lt_0_INR; lia|easy].
    - apply Rmult_lt_reg_r with nR; [easy|]. unfold Rdiv. rewrite Rmult_assoc, Rinv_l by lra. rewrite Rmult_1_r, Rmult_comm. apply Rmult_lt_compat_l; [easy|]. apply lt_INR. lia.
  Qed.
  (** full turns *)
  Lemma dft_sum l : (l < 2 * n)%nat -> rsum (fun k => cos (2 * PI * INR l * INR k / nR)) n = if ((l =? 0) || (l =? n))%nat then nR else 0.
  Proof.
    intros Hl. pose proof nR_pos as P. destruct (Nat.eqb_spec l 0) as [->|L0]; [cbn [orb]|destruct (Nat.eqb_spec l n) as [->|Ln]; cbn [orb]].
    - rewrite (rsum_ext _ (fun _ => 1)); [rewrite rsum_const; unfold nR; ring|]. intros k _. change (INR 0) with 0. replace (2 * PI * 0 * INR k / nR) with 0 by (unfold Rdiv; ring). apply cos_0.
    - rewrite (rsum_ext _ (fun _ => 1)); [rewrite rsum_const; unfold nR; ring|]. intros k _. replace (2 * PI * INR n * INR k / nR) with (2 * INR k * PI) by (unfold nR in *; field; lra). apply cos_2kPI.
    - pose proof (cos_sum (2 * PI * INR l / nR) 0 n) as H. 
      replace (INR n * (2 * PI * INR l / nR) + 0 - 2 * PI * INR l / nR / 2) with (2 * INR l * PI - PI * INR l / nR) in H by (unfold nR in *; field; lra).
      replace (0 - 2 * PI * INR l / nR / 2) with (- (PI * INR l / nR)) in H by (field; lra).
      rewrite sin_minus, cos_2kPI, sin_2kPI, sin_neg in H.
      assert (NZ : sin (2 * PI * INR l / nR / 2) <> 0).
      { replace (2 * PI * INR l / nR / 2) with (INR l * PI / nR) by (field; lra). destruct (le_lt_dec n l) as [G|G].
        - replace (INR l * PI / nR) with (INR (l - n) * PI / nR + PI) by (rewrite minus_INR by easy; unfold nR in *; field; lra).
          rewrite neg_sin. pose proof (sin_frac (l - n) ltac:(lia)). lra.
        - pose proof (sin_frac l ltac:(lia)). lra. }
      rewrite (rsum_ext _ (fun k => cos (INR k * (2 * PI * INR l / nR) + 0))) by (intros; f_equal; field; lra).
      apply Rmult_eq_reg_l with (2 * sin (2 * PI * INR l / nR / 2)); [|lra]. rewrite H. ring.
  Qed.
  (** half turns at the midpoints *)
  Lemma mid_sum l : (l < 2 * n)%nat -> rsum (fun k => cos (INR l * ((INR k + 1 / 2) * PI / nR))) n = if (l =? 0)%nat then nR else 0.
  Proof.
    intros Hl. pose proof nR_pos as P. destruct (Nat.eqb_spec l 0) as [->|L0].
    - rewrite (rsum_ext _ (fun _ => 1)); [rewrite rsum_const; unfold nR; ring|]. intros k _. change (INR 0) with 0. rewrite Rmult_0_l. apply cos_0.
    - set (a := INR l * PI / nR). pose proof (cos_sum a (a / 2) n) as H.
      replace (INR n * a + a / 2 - a / 2) with (INR l * PI) in H by (unfold a, nR in *; field; lra). replace (a / 2 - a / 2) with 0 in H by ring.
      rewrite sin_kPI, sin_0 in H.
      assert (NZ : sin (a / 2) <> 0).
      { apply Rgt_not_eq, sin_gt_0.
        - unfold a. pose proof PI_RGT_0. apply Rdiv_lt_0_compat; [|lra]. apply Rdiv_lt_0_compat; [|easy]. apply Rmult_lt_0_compat; [apply lt_0_INR; lia|easy].
        - unfold a. pose proof PI_RGT_0 as PP. apply Rmult_lt_reg_r with (2 * nR); [lra|]. replace (INR l * PI / nR / 2 * (2 * nR)) with (PI * INR l) by (field; lra).
          apply Rmult_lt_compat_l; [easy|]. apply lt_INR in Hl. rewrite mult_INR in Hl. exact Hl. }
      rewrite (rsum_ext _ (fun k => cos (INR k * a + a / 2))) by (intros; f_equal; unfold a; field; lra).
      apply Rmult_eq_reg_l with (2 * sin (a / 2)); [|lra]. rewrite H. ring.
  Qed.
End Sums.

(** ** Chebyshev polynomials *)
Fixpoint chebpair (x : R) (n : nat) : R * R :=
  match n with O => (1, x) | S m => let '(a, b) := chebpair x m in (b, 2 * x * b - a) end.
Definition cheb (n : nat) (x : R) : R := fst (chebpair x n).
Lemma cheb_0 x : cheb 0 x = 1. Proof. reflexivity. Qed.
Lemma cheb_1 x : cheb 1 x = x. Proof. reflexivity. Qed.
Lemma cheb_SS n x : cheb (S (S n)) x = 2 * x * cheb (S n) x - cheb n x.
Proof. unfold cheb. cbn [chebpair]. destruct (chebpair x n). reflexivity. Qed.
Lemma cheb_cos n t : cheb n (cos t) = cos (INR n * t).
Proof.
  assert (P : cheb n (cos t) = cos (INR n * t) /\ cheb (S n) (cos t) = cos (INR (S n) * t)); [|apply P].
  induction n as [|n [I1 I2]].
  - rewrite cheb_0, cheb_1. change (INR 0) with 0. change (INR 1) with 1. rewrite Rmult_0_l, Rmult_1_l, cos_0. easy.
  - split; [easy|]. rewrite cheb_SS, I1, I2, !S_INR. replace ((INR n + 1 + 1) * t) with ((INR n + 1) * t + t) by ring. replace (INR n * t) with ((INR n + 1) * t - t) by ring.
    rewrite cos_plus, cos_minus. ring.
Qed.
Lemma cheb_poly n : poly1 n (cheb n).
Proof.
  assert (P : poly1 n (cheb n) /\ poly1 (S n) (cheb (S n))); [|apply P].
  induction n as [|n [I1 I2]].
  - split; [apply (poly1_ext _ (fun _ => 1)); [intros; now rewrite cheb_0|apply poly1_const]|]. apply (poly1_ext _ (fun x => x)); [intros; now rewrite cheb_1|apply poly1_x].
  - split; [easy|]. apply (poly1_ext _ (fun x => 2 * (x * cheb (S n) x) - cheb n x)); [intros; rewrite cheb_SS; ring|].
    apply poly1_minus; [apply poly1_scal, (poly1_mult 1 (S n)); [apply poly1_x|easy]|]. apply (poly1_weaken n); [lia|easy].
Qed.
Definition cheb_int (p : nat) : R := if Nat.even p then 2 / (1 - INR p ^ 2) else 0.
Lemma cheb_RInt p : is_RInt (cheb p) (-1) 1 (cheb_int p).
Proof.
  (* substitute x = cos t *)
  assert (C : is_RInt (fun t => cos (INR p * t) * sin t) 0 PI (cheb_int p)).
  { destruct (Nat.eq_dec p 1) as [->|NE].
    - set (F := fun t => sin t * sin t / 2). replace (cheb_int 1) with (F PI - F 0).
      2:{ unfold F, cheb_int. cbn [Nat.even]. rewrite sin_PI, sin_0. field. }
      apply (@is_RInt_derive R_CompleteNormedModule).
      + intros t _. unfold F. auto_derive; [easy|]. change (INR 1) with 1. replace (1 * t) with t by ring. field.
      + intros t _. apply (ex_derive_continuous (K := R_AbsRing) (V := R_NormedModule)). auto_derive. easy.
    - assert (P1 : INR p + 1 <> 0) by (pose proof (pos_INR p); lra).
      assert (P2 : INR p - 1 <> 0). { intros H. apply NE, INR_eq. change (INR 1) with 1. lra. }
      set (F := fun t => - cos ((INR p + 1) * t) / (2 * (INR p + 1)) + cos ((INR p - 1) * t) / (2 * (INR p - 1))).
      replace (cheb_int p) with (F PI - F 0).
      2:{ unfold F, cheb_int. rewrite !Rmult_0_r, cos_0. replace ((INR p + 1) * PI) with (INR p * PI + PI) by ring. replace ((INR p - 1) * PI) with (INR p * PI - PI) by ring.
          rewrite neg_cos, cos_minus, sin_kPI, cos_PI, cos_kPI. assert (P3 : 1 - INR p ^ 2 <> 0) by (replace (1 - INR p ^ 2) with (- ((INR p + 1) * (INR p - 1))) by ring; apply Ropp_neq_0_compat, Rmult_integral_contrapositive; now split).
          destruct (Nat.even p) eqn:EV.
          - apply Nat.even_spec in EV. destruct EV as [k Ek]. replace ((-1) ^ p) with 1 by (rewrite Ek; symmetry; apply pow_1_even). field. repeat split; try assumption; intros Z; apply P3; nra.
          - assert (OD : Nat.odd p = true) by (now rewrite <- Nat.negb_even, EV). apply Nat.odd_spec in OD. destruct OD as [k Ek]. replace ((-1) ^ p) with (-1) by (rewrite Ek, Nat.add_1_r; symmetry; apply pow_1_odd). field. split; assumption. }
      apply (@is_RInt_derive R_CompleteNormedModule).
      + intros t _. unfold F. auto_derive; [repeat split; nra|].
        replace ((INR p + 1) * t) with (INR p * t + t) by ring. replace ((INR p - 1) * t) with (INR p * t - t) by ring.
        rewrite sin_plus, sin_minus. field. split; assumption.
      + intros t _. apply (ex_derive_continuous (K := R_AbsRing) (V := R_NormedModule)). auto_derive. easy. }
  pose proof (@is_RInt_comp R_CompleteNormedModule (cheb p) cos (fun t => - sin t) 0 PI) as S.
  rewrite cos_0, cos_PI in S. 
  assert (Q : is_RInt (fun y => scal (- sin y) (cheb p (cos y))) 0 PI (RInt (cheb p) 1 (-1))).
  { apply S.
    - intros x _. apply (poly1_cont p), cheb_poly.
    - intros x _. split; [auto_derive; [easy|ring]|]. apply (ex_derive_continuous (K := R_AbsRing) (V := R_NormedModule)). auto_derive. easy. }
  assert (Q2 : is_RInt (fun y => scal (- sin y) (cheb p (cos y))) 0 PI (- cheb_int p)).
  { eapply is_RInt_ext; [|exact (@is_RInt_opp R_NormedModule _ _ _ _ C)]. intros y _. cbv beta. rewrite cheb_cos. change (- (cos (INR p * y) * sin y) = - sin y * cos (INR p * y)). ring. }
  pose proof (eq_trans (eq_sym (is_RInt_unique _ _ _ _ Q)) (is_RInt_unique _ _ _ _ Q2)) as E.
  assert (X : ex_RInt (cheb p) (-1) 1) by (apply (@ex_RInt_continuous R_CompleteNormedModule); intros; apply (poly1_cont p), cheb_poly).
  apply (@RInt_correct R_CompleteNormedModule) in X. pose proof (is_RInt_swap _ _ _ _ X) as X2. apply is_RInt_unique in X2. 
  assert (E3 : - RInt (cheb p) (-1) 1 = - cheb_int p) by (refine (eq_trans (eq_sym X2) E)). 
  replace (cheb_int p) with (RInt (cheb p) (-1) 1) by lra. exact X.
Qed.

(** A linear rule that is exact on Chebyshev polynomials is exact on polynomials. *)
Section Span.
  Context (d : nat) (L : (R -> R) -> R).
  Hypothesis Lext : forall f g, (forall x, f x = g x) -> L f = L g.
  Hypothesis Lplus : forall f g, L (fun x => f x + g x) = L f + L g.
  Hypothesis Lscal : forall c f, L (fun x => c * f x) = c * L f.
  Hypothesis HT : forall p, (p <= d)%nat -> L (cheb p) = cheb_int p.
  Lemma span_mixed j : forall i, (i + j <= d)%nat -> is_RInt (fun x => x ^ j * cheb i x) (-1) 1 (L (fun x => x ^ j * cheb i x)).
  Proof.
    induction j as [|j IH]; intros i H.
    - rewrite (Lext _ (cheb i)) by (intros; cbn [pow]; ring). rewrite HT by lia. eapply is_RInt_ext; [|apply cheb_RInt]. intros x _. cbv beta. cbn [pow]. req. ring.
    - destruct i as [|i].
      + assert (E : forall x, x ^ S j * cheb 0 x = x ^ j * cheb 1 x) by (intros; rewrite cheb_0, cheb_1; cbn [pow]; ring).
        rewrite (Lext _ _ E). eapply is_RInt_ext; [|apply IH; lia]. intros x _. cbv beta. symmetry. apply E.
      + assert (E : forall x, x ^ S j * cheb (S i) x = 1 / 2 * (x ^ j * cheb (S (S i)) x) + 1 / 2 * (x ^ j * cheb i x)) by (intros; rewrite cheb_SS; cbn [pow]; field).
        rewrite (Lext _ _ E), Lplus, !Lscal. eapply is_RInt_ext.
        2:{ apply (@is_RInt_plus R_NormedModule); apply (@is_RInt_scal R_NormedModule); apply IH; lia. }
        intros x _. cbv beta. symmetry. exact (E x).
  Qed.
  Lemma span_poly f : poly1 d f -> is_RInt f (-1) 1 (L f).
  Proof.
    intros (c & Hc). rewrite (Lext _ _ Hc). apply (is_RInt_ext (fun x => rsum (fun k => c k * x ^ k) (S d))); [intros; symmetry; apply Hc|].
    assert (Q : forall m, (m <= S d)%nat -> is_RInt (fun x => rsum (fun k => c k * x ^ k) m) (-1) 1 (L (fun x => rsum (fun k => c k * x ^ k) m))).
    { induction m as [|m IH]; intros Hm.
      - rewrite (Lext _ (fun x => 0 * cheb 0 x)) by (intros; cbn [rsum]; ring). rewrite Lscal, Rmult_0_l. cbn [rsum]. evar_last; [apply (@is_RInt_const R_NormedModule)|]. change ((1 - -1) * 0 = 0). ring.
      - rewrite (Lext _ (fun x => rsum (fun k => c k * x ^ k) m + c m * (x ^ m * cheb 0 x))) by (intros; rewrite rsum_S, cheb_0; ring).
        rewrite Lplus, Lscal. eapply is_RInt_ext.
        2:{ apply (@is_RInt_plus R_NormedModule); [apply IH; lia|]. apply (@is_RInt_scal R_NormedModule). apply span_mixed. lia. }
        intros x _. cbv beta. rewrite rsum_S, cheb_0. change (rsum (fun k => c k * x ^ k) m + c m * (x ^ m * 1) = rsum (fun k => c k * x ^ k) m + c m * x ^ m). ring. }
    now apply Q.
  Qed.
End Span.
