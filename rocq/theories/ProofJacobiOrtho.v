(** * Orthonormality of the code's Jacobi polynomials *)
From Coq Require Import List Arith Bool ZArith Reals Lia Lra.
From Coquelicot Require Import Coquelicot.
From Verif Require Import Py ModelModes RSum IntFacts ProofGamma ProofJacobi ProofJacobi2.
Import ListNotations.
Local Open Scope R_scope.

(** ** Favard-type argument for an abstract linear integration relation *)
Section Favard.
  Context (Int : (R -> R) -> R -> Prop).
  Context (Int_ext : forall f g l, (forall x, f x = g x) -> Int f l -> Int g l).
  Context (Int_plus : forall f g l m, Int f l -> Int g m -> Int (fun x => f x + g x) (l + m)).
  Context (Int_scal : forall c f l, Int f l -> Int (fun x => c * f x) (c * l)).
  Context (p : nat -> R -> R) (al be : nat -> R).
  Context (Hal : forall n, al n <> 0).
  Context (c0 : R) (Hp0 : forall x, p 0%nat x = c0).
  Context (Hp1 : forall x, al 0%nat * p 1%nat x = (x - be 0%nat) * p 0%nat x).
  Context (Hrec : forall n x, (x - be (S n)) * p (S n) x = al (S n) * p (S (S n)) x + al n * p n x).
  Context (H00 : Int (fun _ => c0 * c0) 1).
  Context (Hn : forall n, Int (p (S n)) 0).

  Definition delta (m n : nat) : R := if Nat.eqb m n then 1 else 0.

  Let pm (m : nat) (x : R) : R := match m with O => 0 | S k => al k * p k x end.
  Let dm (m n : nat) : R := match m with O => 0 | S k => al k * delta k n end.

  Lemma Int_cast f l m : Int f l -> l = m -> Int f m.
  Proof. now intros H <-. Qed.

  Lemma rec_all n x : x * p n x = al n * p (S n) x + be n * p n x + pm n x.
  Proof.
    destruct n as [|n]; unfold pm.
    - rewrite Hp1. ring.
    - pose proof (Hrec n x). lra.
  Qed.

  Lemma delta_sym m n : delta m n = delta n m.
  Proof. unfold delta. now rewrite Nat.eqb_sym. Qed.

  Lemma favard m : forall n, Int (fun x => p m x * p n x) (delta m n).
  Proof.
    induction m as [m IH] using lt_wf_ind. intros n.
    destruct m as [|m].
    - destruct n as [|n].
      + eapply Int_ext; [|exact H00]. intros x. cbv beta. now rewrite Hp0.
      + replace (delta 0 (S n)) with (c0 * 0) by (unfold delta; simpl; ring).
        eapply Int_ext; [|apply Int_scal, (Hn n)]. intros x. cbv beta. now rewrite Hp0.
    - assert (H1 : Int (fun x => p m x * pm n x) (dm n m)).
      { destruct n as [|n]; unfold pm, dm.
        - eapply Int_ext with (f := fun x => 0 * (p m x * p m x)).
          + intros x. cbv beta. ring.
          + eapply Int_cast; [apply Int_scal, (IH m); lia|ring].
        - eapply Int_ext with (f := fun x => al n * (p m x * p n x)).
          + intros x. cbv beta. ring.
          + rewrite delta_sym. apply Int_scal. apply IH; lia. }
      assert (H2 : Int (fun x => pm m x * p n x) (dm m n)).
      { destruct m as [|m]; unfold pm, dm.
        - eapply Int_ext with (f := fun x => 0 * (p 0%nat x * p n x)).
          + intros x. cbv beta. ring.
          + eapply Int_cast; [apply Int_scal, (IH 0%nat); lia|ring].
        - eapply Int_ext with (f := fun x => al m * (p m x * p n x)).
          + intros x. cbv beta. ring.
          + apply Int_scal. apply IH; lia. }
      assert (H3 : Int (fun x => / al m * (al n * (p m x * p (S n) x)
                     + (be n - be m) * (p m x * p n x) + p m x * pm n x
                     + (-1) * (pm m x * p n x)))
                   (/ al m * (al n * delta m (S n) + (be n - be m) * delta m n + dm n m
                      + (-1) * dm m n))).
      { apply Int_scal. repeat apply Int_plus; try apply Int_scal; try easy; apply IH; lia. }
      replace (delta (S m) n) with (/ al m * (al n * delta m (S n) + (be n - be m) * delta m n + dm n m
                      + (-1) * dm m n)).
      + eapply Int_ext; [|exact H3]. intros x. cbv beta.
        pose proof (rec_all n x) as R1. pose proof (rec_all m x) as R2.
        apply Rmult_eq_reg_l with (al m); [|apply Hal]. rewrite <- Rmult_assoc, Rinv_r by apply Hal.
        transitivity (p m x * (al n * p (S n) x + be n * p n x + pm n x)
                      - (be m * p m x + pm m x) * p n x); [ring|].
        rewrite <- R1.
        replace (be m * p m x + pm m x) with (x * p m x - al m * p (S m) x) by lra. ring.
      + unfold dm, delta.
        destruct (lt_eq_lt_dec n m) as [[Hlt|He]|Hgt].
        * (* n < m *)
          destruct m as [|m]; [lia|].
          rewrite (proj2 (Nat.eqb_neq (S (S m)) n)), (proj2 (Nat.eqb_neq (S m) n)) by lia.
          assert (E1 : match n with O => 0 | S k => al k * (if (k =? S m)%nat then 1 else 0) end = 0).
          { destruct n as [|k]; [easy|]. rewrite (proj2 (Nat.eqb_neq k (S m))) by lia. ring. }
          rewrite E1. simpl (S m =? S n)%nat.
          destruct (Nat.eq_dec m n) as [->|Hne].
          -- rewrite !Nat.eqb_refl. field. apply Hal.
          -- rewrite !(proj2 (Nat.eqb_neq m n)) by easy. field. apply Hal.
        * subst n. rewrite !Nat.eqb_refl.
          rewrite (proj2 (Nat.eqb_neq m (S m))), (proj2 (Nat.eqb_neq (S m) m)) by lia.
          destruct m as [|k]; [|rewrite (proj2 (Nat.eqb_neq k (S k))) by lia]; field; apply Hal.
        * rewrite (proj2 (Nat.eqb_neq m (S n))), (proj2 (Nat.eqb_neq m n)) by lia.
          assert (E1 : match m with O => 0 | S k => al k * (if (k =? n)%nat then 1 else 0) end = 0).
          { destruct m as [|k]; [easy|]. rewrite (proj2 (Nat.eqb_neq k n)) by lia. ring. }
          rewrite E1. destruct n as [|n]; [lia|]. simpl (S m =? S n)%nat. rewrite (Nat.eqb_sym n m).
          destruct (Nat.eq_dec m n) as [->|Hne].
          -- rewrite !Nat.eqb_refl. field. apply Hal.
          -- rewrite !(proj2 (Nat.eqb_neq m n)) by easy. field. apply Hal.
  Qed.
End Favard.

(** ** Derivative of F as a power sum, and the antiderivative of P_n w *)
Definition dF (a s : R) (n : nat) (x : R) : R :=
  rsum (fun k => qc a s n (S k) * (INR (S k) / 2 * ((x - 1) / 2) ^ k)) n.

Lemma F_dF a s n x : is_derive (F a s n) x (dF a s n x).
Proof.
  unfold F. apply is_derive_ext with
    (fun y => 1 + rsum (fun k => qc a s n (S k) * ((y - 1) / 2) ^ (S k)) n).
  { intros t. rewrite (rsum_shift _ n). cbn [qc pow].
    match goal with |- ?l = ?r => change (@eq R l r) end. ring. }
  replace (dF a s n x) with (0 + dF a s n x) by ring.
  apply @is_derive_plus; [apply @is_derive_const|].
  apply is_derive_rsum. intros k _.
  apply (is_derive_scal (fun y => ((y - 1) / 2) ^ (S k))).
  auto_derive; [easy|].
  change (match k with 0%nat => 1 | S _ => INR k + 1 end) with (INR (S k)).
  unfold Rdiv, Rminus. ring.
Qed.

Lemma rodrigues a s n x : -1 < a -> -2 < s ->
  ((s - a + 1) * (1 - x) - (a + 1) * (1 + x)) * F (a + 1) (s + 2) n x
  + (1 - x) * (1 + x) * dF (a + 1) (s + 2) n x
  = - (2 * (a + 1)) * F a s (S n) x.
Proof.
  intros Ha Hs. rewrite (F_ext a s (S n) (S (S n))), (F_ext (a + 1) (s + 2) n (S n)) by lia.
  unfold dF. set (u := (x - 1) / 2). replace x with (1 + 2 * u) by (unfold u; field).
  set (q := qc (a + 1) (s + 2) n).
  assert (E0 : rsum (fun k => q k * u ^ k) (S n) = 1 + rsum (fun k => q (S k) * u ^ (S k)) (S n)).
  { transitivity (rsum (fun k => q k * u ^ k) (S (S n))).
    - symmetry. apply rsum_tail; [lia|]. intros k Hk. unfold q. rewrite qc_zero by lia. ring.
    - rewrite rsum_shift. unfold q. cbn [qc pow]. ring. }
  assert (E1 : u * rsum (fun k => q k * u ^ k) (S n) = rsum (fun k => q k * u ^ (S k)) (S n)).
  { rewrite <- rsum_scal. apply rsum_ext. intros k _. cbn [pow]. ring. }
  set (D := rsum (fun k => q (S k) * (INR (S k) / 2 * u ^ k)) n).
  assert (D0 : 2 * u * D = rsum (fun k => INR (S k) * q (S k) * u ^ (S k)) (S n)).
  { rewrite rsum_S. unfold q at 2. rewrite qc_zero by lia. rewrite Rmult_0_r, Rmult_0_l, Rplus_0_r.
    unfold D. rewrite <- rsum_scal. apply rsum_ext. intros k _. cbn [pow]. field. }
  assert (D1 : 2 * u * u * D = rsum (fun k => INR k * q k * u ^ (S k)) (S n)).
  { rewrite rsum_shift. simpl (INR 0). rewrite !Rmult_0_l, Rplus_0_l.
    unfold D. rewrite <- rsum_scal. apply rsum_ext. intros k _. cbn [pow]. field. }
  rewrite (rsum_shift (fun k => qc a s (S n) k * u ^ k)).
  transitivity (-2 * ((s - a + 1) + (a + 1)) * (u * rsum (fun k => q k * u ^ k) (S n))
    + -2 * (a + 1) * rsum (fun k => q k * u ^ k) (S n)
    + -2 * (2 * u * D) + -2 * (2 * u * u * D)); [ring|].
  rewrite E1, E0, D0, D1. change (qc a s (S n) 0) with 1. rewrite pow_O.
  set (S1 := rsum (fun k => q (S k) * u ^ S k) (S n)).
  set (S2 := rsum (fun k => q k * u ^ S k) (S n)).
  set (S3 := rsum (fun k => INR (S k) * q (S k) * u ^ S k) (S n)).
  set (S4 := rsum (fun k => INR k * q k * u ^ S k) (S n)).
  set (T := rsum (fun k => qc a s (S n) (S k) * u ^ S k) (S n)).
  assert (H : (s + 2) * S2 + (a + 1) * S1 + S3 + S4 = (a + 1) * T).
  { unfold S1, S2, S3, S4, T. rewrite <- !rsum_scal, <- !rsum_plus.
    apply rsum_ext. intros k _.
    pose proof (qc_deriv a s n k Ha) as H1. pose proof (qc_deriv a s n (S k) Ha) as H2.
    fold q in H1, H2. pose proof (qc_S a s Ha (S n) (S k)) as H3.
    pose proof (pos_INR k) as Hk. pose proof (pos_INR n) as Hn.
    rewrite !(S_INR (S k)), !(S_INR k), !(S_INR n) in *.
    set (w := (INR n + 1) * (INR n + 1 + s + 1)) in *.
    assert (Hw : 0 < w) by (unfold w; apply Rmult_lt_0_compat; lra).
    apply Rmult_eq_reg_l with w; [|lra].
    transitivity (((s + 2 + INR k) * (w * q k) + (a + 1 + (INR k + 1)) * (w * q (S k))) * u ^ S k); [ring|].
    rewrite <- H1, <- H2.
    transitivity (((s + 2 + INR k) * ((INR k + 1) * qc a s (S n) (S k) * (a + 1))
       + (a + 1) * (qc a s (S n) (S (S k)) * ((INR k + 1 + 1) * (a + 1 + (INR k + 1))))) * u ^ S k); [ring|].
    rewrite H3. unfold w. ring. }
  transitivity (-2 * ((s + 2) * S2 + (a + 1) * S1 + S3 + S4) - 2 * (a + 1)); [ring|].
  rewrite H. ring.
Qed.

(** ** Natural number parameters: proper integrals *)
Section NatParams.
  Context (a b : nat).

  Definition wnat (x : R) : R := (1 - x) ^ a * (1 + x) ^ b.

  Definition IntN (f : R -> R) (l : R) : Prop := is_RInt (fun x => f x * wnat x) (-1) 1 l.

  Lemma IntN_ext f g l : (forall x, f x = g x) -> IntN f l -> IntN g l.
  Proof. intros E H. eapply is_RInt_ext; [|exact H]. intros x _. cbv beta. now rewrite E. Qed.
  Lemma IntN_plus f g l m : IntN f l -> IntN g m -> IntN (fun x => f x + g x) (l + m).
  Proof.
    intros H1 H2. eapply isR_ext; [|exact (isR_plus _ _ _ _ _ _ H1 H2)].
    intros x. cbv beta. ring.
  Qed.
  Lemma IntN_scal c f l : IntN f l -> IntN (fun x => c * f x) (c * l).
  Proof.
    intros H1. eapply isR_ext; [|exact (isR_scal _ _ _ c _ H1)].
    intros x. cbv beta. ring.
  Qed.

  Lemma w1_deriv x :
    is_derive (fun y => (1 - y) ^ S a * (1 + y) ^ S b) x
      (wnat x * ((INR b + 1) * (1 - x) - (INR a + 1) * (1 + x))).
  Proof.
    auto_derive; [easy|].
    change (match a with 0%nat => 1 | S _ => INR a + 1 end) with (INR (S a)).
    change (match b with 0%nat => 1 | S _ => INR b + 1 end) with (INR (S b)).
    unfold wnat. rewrite !S_INR. cbn [pow]. unfold Rminus. ring.
  Qed.

  Lemma w1_ends : (1 - -1) ^ S a * (1 + -1) ^ S b = 0 /\ (1 - 1) ^ S a * (1 + 1) ^ S b = 0.
  Proof.
    replace (1 + -1) with 0 by ring. replace (1 - 1) with 0 by ring. cbn [pow]. split; ring.
  Qed.

  Lemma wnat_cont x : continuous wnat x.
  Proof.
    apply (@ex_derive_continuous R_AbsRing R_NormedModule). unfold wnat. auto_derive. easy.
  Qed.

  Lemma F_cont c s n x : continuous (F c s n) x.
  Proof. apply (@ex_derive_continuous R_AbsRing R_NormedModule). eexists. apply F_dF. Qed.

  (** The integral of P_{n+1} w vanishes *)
  Lemma F_int0 n : IntN (F (INR a) (INR a + INR b) (S n)) 0.
  Proof.
    set (s := INR a + INR b).
    assert (Ha : -1 < INR a) by (generalize (pos_INR a); lra).
    assert (Hb : -1 < INR b) by (generalize (pos_INR b); lra).
    set (g := fun y => ((1 - y) ^ S a * (1 + y) ^ S b) * F (INR a + 1) (s + 2) n y).
    set (dg := fun x => - (2 * (INR a + 1)) * (F (INR a) s (S n) x * wnat x)).
    assert (Hd : forall x, is_derive g x (dg x)).
    { intros x. unfold g, dg.
      replace (- (2 * (INR a + 1)) * (F (INR a) s (S n) x * wnat x))
        with (wnat x * ((INR b + 1) * (1 - x) - (INR a + 1) * (1 + x)) * F (INR a + 1) (s + 2) n x
              + (1 - x) ^ S a * (1 + x) ^ S b * dF (INR a + 1) (s + 2) n x).
      - apply (is_derive_mult (fun y => (1 - y) ^ S a * (1 + y) ^ S b)).
        + apply w1_deriv.
        + apply F_dF.
        + intros n0 m0. apply Rmult_comm.
      - transitivity (- (2 * (INR a + 1)) * F (INR a) s (S n) x * wnat x); [|ring].
        rewrite <- (rodrigues (INR a) s n x Ha) by (unfold s; lra).
        replace (s - INR a + 1) with (INR b + 1) by (unfold s; ring).
        unfold wnat. cbn [pow]. ring. }
    assert (Hi : is_RInt dg (-1) 1 (g 1 - g (-1))).
    { apply FTC; [apply Hd|]. intros x. unfold dg.
      apply (continuous_scal_r (- (2 * (INR a + 1))) (fun x => F (INR a) s (S n) x * wnat x)).
      apply (continuous_mult (F (INR a) s (S n)) wnat); [apply F_cont|apply wnat_cont]. }
    destruct w1_ends as [E1 E2].
    unfold g in Hi. rewrite E1, E2, !Rmult_0_l in Hi.
    apply (isR_scal _ _ _ (/ - (2 * (INR a + 1)))) in Hi.
    unfold IntN. eapply isR_ext; [|eapply isR_eq; [exact Hi|ring]].
    intros x. unfold dg. field. lra.
  Qed.
End NatParams.

(** The integral of the weight. *)
Lemma weight_int_0 b : IntN 0 b (fun _ => 1) (2 ^ S b / INR (S b)).
Proof.
  unfold IntN, wnat.
  eapply isR_ext; [|eapply isR_eq; [apply (FTC (fun x => (1 + x) ^ S b / INR (S b)) (fun x => (1 + x) ^ b))|]].
  - intros x. cbn [pow]. ring.
  - intros x. pose proof (not_0_INR (S b) ltac:(lia)).
    auto_derive; [easy|].
    change (match b with 0%nat => 1 | S _ => INR b + 1 end) with (INR (S b)). field. easy.
  - intros x. apply ex_derive_cont. auto_derive. easy.
  - cbv beta. replace (1 + -1) with 0 by ring. replace (1 + 1) with 2 by ring.
    cbn [pow]. unfold Rdiv. ring.
Qed.

Lemma weight_int_S a b l : IntN a b (fun _ => 1) l ->
  IntN (S a) b (fun _ => 1) (l * (2 * (INR a + 1) / (INR a + INR b + 2))).
Proof.
  intros H.
  assert (Hab : 0 < INR a + INR b + 2) by (generalize (pos_INR a) (pos_INR b); lra).
  (* (1-x)^{a+1} (1+x)^b = [2(a+1) w + d((1-x)^{a+1}(1+x)^{b+1})] / (a+b+2) *)
  set (dg := fun x => wnat a b x * ((INR b + 1) * (1 - x) - (INR a + 1) * (1 + x))).
  assert (Hi : is_RInt dg (-1) 1 ((1 - 1) ^ S a * (1 + 1) ^ S b - (1 - -1) ^ S a * (1 + -1) ^ S b)).
  { apply (FTC (fun y => (1 - y) ^ S a * (1 + y) ^ S b)).
    - intros x. apply w1_deriv.
    - intros x. apply ex_derive_cont. unfold dg, wnat. auto_derive. easy. }
  destruct (w1_ends a b) as [E1 E2]. rewrite E1, E2 in Hi.
  unfold IntN. eapply isR_ext; [|eapply isR_eq; [apply isR_plus;
     [apply (isR_scal _ _ _ (2 * (INR a + 1) / (INR a + INR b + 2)) _ H)
     |apply (isR_scal _ _ _ (/ (INR a + INR b + 2)) _ Hi)]|]].
  - intros x. unfold dg, wnat. cbn [pow]. field. lra.
  - field. lra.
Qed.

Lemma weight_int a b : IntN a b (fun _ => 1)
  (2 ^ (a + b + 1) * INR (fact a) * INR (fact b) / INR (fact (a + b + 1))).
Proof.
  induction a as [|a IH].
  - eapply Int_cast; [apply weight_int_0|].
    rewrite Nat.add_0_l. change (INR (fact 0)) with 1.
    replace (b + 1)%nat with (S b) by lia.
    change (fact (S b)) with (S b * fact b)%nat. rewrite mult_INR.
    pose proof (INR_fact_lt_0 b). pose proof (not_0_INR (S b) ltac:(lia)). field. split; lra.
  - eapply Int_cast; [apply weight_int_S, IH|].
    replace (S a + b + 1)%nat with (S (a + b + 1)) by lia.
    change (fact (S (a + b + 1))) with (S (a + b + 1) * fact (a + b + 1))%nat.
    change (fact (S a)) with (S a * fact a)%nat.
    rewrite !mult_INR, !S_INR, !plus_INR. change (INR 1) with 1. cbn [pow].
    pose proof (INR_fact_lt_0 (a + b + 1)). pose proof (pos_INR a). pose proof (pos_INR b).
    field. split; lra.
Qed.

Lemma G0_nat a b : G0 (INR a) (INR b)
  = 2 ^ (a + b + 1) * INR (fact a) * INR (fact b) / INR (fact (a + b + 1)).
Proof.
  unfold G0. rewrite !gamma_fact.
  replace (INR a + INR b + 2) with (INR (a + b + 1) + 1) by (rewrite !plus_INR; simpl; ring).
  rewrite gamma_fact.
  replace (INR a + INR b + 1) with (INR (a + b + 1)) by (rewrite !plus_INR; simpl; ring).
  now rewrite Rpower_pow by lra.
Qed.

Lemma nat_exact a b : exact_params (INR a) (INR b).
Proof.
  right. rewrite Rabs_right by (generalize (pos_INR a) (pos_INR b); lra).
  apply Rle_trans with 1; [|generalize (pos_INR a) (pos_INR b); lra].
  rewrite <- Rinv_1. apply Rinv_le_contravar; lra.
Qed.

(** The first-order relation p_1 = (x - beta_0) p_0 / alpha_0 *)
Lemma jp_first a b x : -1 < a -> -1 < b ->
  A a b 0 * jp a b 1 x = (x - (b - a) / (a + b + 2)) * jp a b 0 x.
Proof.
  intros Ha Hb. unfold jp. rewrite F_1, F_0 by easy.
  rewrite <- !Rmult_assoc, Rmult_1_r. cbn [kap A]. simpl INR.
  pose proof (rr_pos a b Ha Hb 0) as Hr.
  set (k := 1 / sqrt (jac_gamma0 a b)). set (r := rr a b 0) in *. field. repeat split; lra.
Qed.

(** The middle coefficient: beta_0 of the code's recurrence started at P_1. *)
Definition bcoef (a b : R) (n : nat) : R :=
  match n with O => (b - a) / (a + b + 2) | S _ => jac_bnew a b n end.

(** Orthonormality, for any linear integration relation with the two key values. *)
Lemma jp_orthonormal (Int : (R -> R) -> R -> Prop) a b :
  (forall f g l, (forall x, f x = g x) -> Int f l -> Int g l) ->
  (forall f g l m, Int f l -> Int g m -> Int (fun x => f x + g x) (l + m)) ->
  (forall c f l, Int f l -> Int (fun x => c * f x) (c * l)) ->
  -1 < a -> -1 < b -> exact_params a b ->
  Int (fun _ => 1) (G0 a b) ->
  (forall n, Int (F a (a + b) (S n)) 0) ->
  forall m n, Int (fun x => jp a b m x * jp a b n x) (delta m n).
Proof.
  intros I1 I2 I3 Ha Hb He H0 Hn m n.
  apply (favard Int I1 I2 I3 (jp a b) (A a b) (bcoef a b)) with (c0 := kap a b 0).
  - intros k. apply Rgt_not_eq, A_pos; easy.
  - intros x. unfold jp. rewrite F_0. ring.
  - intros x. now apply jp_first.
  - intros k x. apply jp_rec; easy.
  - rewrite kap_sq_0, jac_gamma0_exact by easy.
    pose proof (G0_pos a b Ha Hb).
    replace 1 with (/ G0 a b * G0 a b) at 1 by (field; lra).
    eapply I1; [|apply I3, H0]. intros x. cbv beta. ring.
  - intros k. eapply Int_cast; [eapply I1; [|apply (I3 (kap a b (S k))), (Hn k)]|ring].
    intros x. reflexivity.
Qed.

Theorem jacobi_orthonormal_nat (a b m n : nat) :
  is_RInt (fun x => jacobi Rops (INR a) (INR b) m x * jacobi Rops (INR a) (INR b) n x
                    * ((1 - x) ^ a * (1 + x) ^ b)) (-1) 1 (delta m n).
Proof.
  assert (Ha : -1 < INR a) by (generalize (pos_INR a); lra).
  assert (Hb : -1 < INR b) by (generalize (pos_INR b); lra).
  eapply is_RInt_ext with (f := fun x => jp (INR a) (INR b) m x * jp (INR a) (INR b) n x * wnat a b x).
  { intros x _. cbv beta. now rewrite !jacobi_jp by first [easy|now apply jac_gamma0_pos]. }
  apply (jp_orthonormal (IntN a b) (INR a) (INR b)); try easy.
  - apply IntN_ext.
  - apply IntN_plus.
  - apply IntN_scal.
  - apply nat_exact.
  - rewrite G0_nat. apply weight_int.
  - intros k. apply F_int0.
Qed.
