(** * The Kronrod coefficients and the assembled rule *)
From Coquelicot Require Import Coquelicot.
From Coq Require Import List Arith Bool Reals Lra Lia Permutation Sorted.
From Verif Require Import Py RSum ModelNd ModelShapes ModelNodes ModelModes ModelQuad ModelGauss ModelKronrod.
From Verif Require Import ProofPoly1 ProofMonomial ProofGauss ProofGauss2 ProofKronrod ProofEig ProofGK.
Import ListNotations.
Local Open Scope R_scope.

(** ** Coefficients *)
Lemma upd_other f i v j : j <> i -> upd f i v j = f j.
Proof. intros H. unfold upd. destruct (Nat.eqb_spec j i); [easy|reflexivity]. Qed.
Lemma upd_same f i v : upd f i v i = v.
Proof. unfold upd. now rewrite Nat.eqb_refl. Qed.
Lemma kronrod_b_spec n j : (j < 2 * n)%nat -> kronrod_b n j = sqrt (laurie n (j + 1)%nat).
Proof.
  intros Hj. unfold kronrod_b.
  assert (P : forall m, let b := fold_left (fun b j => upd b j (sqrt (b (j + 1)%nat))) (seq 0 m) (laurie n) in
     (forall i, (i < m)%nat -> b i = sqrt (laurie n (i + 1)%nat)) /\ (forall i, (m <= i)%nat -> b i = laurie n i)).
  { induction m as [|m [I1 I2]]; [split; intros; [lia|reflexivity]|]. cbv zeta. rewrite seq_S, fold_left_app. cbn [fold_left Nat.add]. set (b := fold_left _ _ _) in *. split.
    - intros i Hi. destruct (Nat.eq_dec i m) as [->|]; [rewrite upd_same, I2 by lia; reflexivity|]. rewrite upd_other by easy. apply I1. lia.
    - intros i Hi. rewrite upd_other by lia. apply I2. lia. }
  now apply P.
Qed.
Definition KK (n : nat) : nat := ((3 * n + 1) / 2)%nat.
Lemma KK_bounds n : (2 * KK n <= 3 * n + 1 <= 2 * KK n + 1)%nat.
Proof. unfold KK. pose proof (Nat.div_mod (3 * n + 1) 2 ltac:(lia)). pose proof (Nat.mod_upper_bound (3 * n + 1) 2 ltac:(lia)). lia. Qed.
Lemma laurie_init_spec n j : (1 <= j <= KK n)%nat -> laurie_init n j = INR j * INR j / (4 * INR j * INR j - 1).
Proof.
  intros Hj. unfold laurie_init. fold (KK n).
  assert (P : forall m j, (1 <= j <= m)%nat -> fold_left (fun b j => upd b j (INR j * INR j / (4 * INR j * INR j - 1))) (seq 1 m) (upd (fun _ => 0) 0 2) j = INR j * INR j / (4 * INR j * INR j - 1)).
  { induction m as [|m IH]; intros i Hi; [lia|]. rewrite seq_S, fold_left_app. cbn [fold_left]. destruct (Nat.eq_dec i (1 + m)) as [->|]; [now rewrite upd_same|]. rewrite upd_other by easy. apply IH. lia. }
  now apply P.
Qed.
Lemma laurie_low n j : (1 <= n)%nat -> (j <= KK n)%nat -> laurie n j = laurie_init n j.
Proof.
  intros Hn Hj. unfold laurie. destruct (fold_left (laurie_outer1 n (laurie_init n)) _ _) as [s t].
  set (s' := fold_left _ _ s). 
  assert (P : forall l b s t, (forall m, In m l -> (n - 1 <= m)%nat) -> fst (fst (fold_left (laurie_outer2 n) l (b, s, t))) j = b j).
  { clear s t s'. induction l as [|m l IH]; intros b s t Hl; [reflexivity|]. cbn [fold_left]. unfold laurie_outer2 at 2.
    destruct (fold_left (laurie_inner2 n m b) _ _) as [u s1]. rewrite IH by (intros; apply Hl; now right).
    specialize (Hl m (or_introl eq_refl)). destruct (Nat.eqb_spec (2 * ((m + 1) / 2)) m) as [|NE]; [reflexivity|]. apply upd_other.
    pose proof (KK_bounds n). pose proof (Nat.div_mod (m + 1) 2 ltac:(lia)). pose proof (Nat.mod_upper_bound (m + 1) 2 ltac:(lia)). lia. }
  specialize (P (seq (n - 1) (2 * n - 2 - (n - 1))) (laurie_init n) s' t). destruct (fold_left (laurie_outer2 n) _ _) as [[b' s1] t1]. cbn [fst] in P. apply P.
  intros m Hm. apply in_seq in Hm. lia.
Qed.
Lemma kronrod_b_legendre n j : (1 <= n)%nat -> (j < KK n)%nat -> kronrod_b n j = legendre_b j.
Proof.
  intros Hn Hj. pose proof (KK_bounds n). rewrite kronrod_b_spec, laurie_low, laurie_init_spec by lia. unfold legendre_b.
  pose proof (pos_INR j). assert (P : 0 < INR (j + 1)) by (rewrite plus_INR; cbn [INR]; lra).
  assert (Q : 0 < 4 * INR (j + 1) * INR (j + 1) - 1). { rewrite plus_INR. cbn [INR]. nra. }
  rewrite sqrt_div by nra. rewrite sqrt_square by lra. reflexivity.
Qed.

(** ** The sum that the assembled rule computes *)
Lemma rsum_even_odd (f : nat -> R) : forall p, rsum f (2 * p) = rsum (fun i => f (2 * i)%nat) p + rsum (fun i => f (2 * i + 1)%nat) p.
Proof.
  induction p as [|p IH]; [cbn; ring|]. replace (2 * S p)%nat with (S (S (2 * p))) by lia. rewrite (rsum_S f (S (2 * p))), (rsum_S f (2 * p)), !(rsum_S _ p), IH. replace (S (2 * p)) with (2 * p + 1)%nat by lia. ring.
Qed.
Lemma kr_call_sum n x w gw F : (1 <= n)%nat -> length x = (n + 1)%nat -> length w = (n + 1)%nat ->
  kr_call (assemble_kronrod n (x, w, gw)) (fun y => Ok (F y)) = Ok (rsum (fun i => nth i w 0 * (F (nth i x 0) + F (- nth i x 0))) n + nth n w 0 * F 0).
Proof.
  intros Hn Lx Lw. set (xg := fun i => nth (2 * i + 1) x 0). set (xk := fun i => nth (2 * i) x 0). set (wg := fun i => nth (2 * i + 1) w 0). set (wk := fun i => nth (2 * i) w 0).
  assert (G0 : forall l : list R, map (fun p => nth 0 p 0) (map (fun t => [t]) l) = l).
  { intros l. rewrite map_map. cbn [nth]. apply map_id. }
  destruct (Nat.even n) eqn:EV.
  - apply Nat.even_spec in EV. destruct EV as [p EV].
    assert (M2 : (n mod 2 = 0)%nat) by (rewrite EV; replace (2 * p)%nat with (p * 2)%nat by lia; now rewrite Nat.mod_mul by lia).
    destruct (evens_even p x ltac:(lia)) as [X1 X2]. destruct (evens_even p w ltac:(lia)) as [W1 W2].
    unfold kr_call, assemble_kronrod. rewrite M2. cbn [Nat.eqb kr_gauss kr_nodes kr_weights kr_gauss_weights q_nodes].
    rewrite (mapM_total (fun p0 : list R => F (nth 0 p0 0))). cbn [bind]. rewrite <- map_map with (f := fun p0 : list R => nth 0 p0 0), G0.
    rewrite mapM_total. cbn [bind]. rewrite X1, X2, W1, W2, !removelast_map_seq, last_map_seq.
    match goal with |- (if negb ?c then _ else _) = _ => assert (c = true) as -> end.
    { apply Nat.eqb_eq. repeat (rewrite map_length || rewrite app_length || rewrite rev_length || rewrite seq_length). cbn [length]. lia. }
    cbn [negb].
    match goal with |- (if negb ?c then _ else _) = _ => assert (c = true) as -> end.
    { apply Nat.eqb_eq. repeat (rewrite map_length || rewrite app_length || rewrite rev_length || rewrite seq_length). cbn [length]. lia. }
    cbn [negb]. apply f_equal. refine (eq_trans (f_equal2 Rplus (dotR_mirror F xg wg p) (dotR_mirror0 F xk wk 0 (wk p) p)) _).
    rewrite EV, rsum_even_odd. unfold xg, xk, wg, wk. ring.
  - assert (OD : Nat.Odd n) by (apply Nat.odd_spec; unfold Nat.odd; now rewrite EV). destruct OD as [p OD].
    assert (M2 : (n mod 2 = 1)%nat) by (rewrite OD; replace (2 * p + 1)%nat with (1 + p * 2)%nat by lia; now rewrite Nat.mod_add by lia).
    destruct (evens_odd p x ltac:(lia)) as [X1 X2]. destruct (evens_odd p w ltac:(lia)) as [W1 W2].
    assert (LW : last w 0 = wg p). { rewrite last_nth by (intros ->; cbn in Lw; lia). unfold wg. f_equal. lia. }
    unfold kr_call, assemble_kronrod. rewrite M2. cbn [Nat.eqb kr_gauss kr_nodes kr_weights kr_gauss_weights q_nodes].
    rewrite (mapM_total (fun p0 : list R => F (nth 0 p0 0))). cbn [bind]. rewrite <- map_map with (f := fun p0 : list R => nth 0 p0 0), G0.
    rewrite mapM_total. cbn [bind]. rewrite X1, X2, W1, W2, !removelast_map_seq, LW.
    match goal with |- (if negb ?c then _ else _) = _ => assert (c = true) as -> end.
    { apply Nat.eqb_eq. repeat (rewrite map_length || rewrite app_length || rewrite rev_length || rewrite seq_length). cbn [length]. lia. }
    cbn [negb].
    match goal with |- (if negb ?c then _ else _) = _ => assert (c = true) as -> end.
    { apply Nat.eqb_eq. repeat (rewrite map_length || rewrite app_length || rewrite rev_length || rewrite seq_length). cbn [length]. lia. }
    cbn [negb]. apply f_equal. refine (eq_trans (f_equal2 Rplus (dotR_mirror0 F xg wg 0 (wg p) p) (dotR_mirror F xk wk (S p))) _).
    rewrite OD. replace (2 * p + 1)%nat with (S (2 * p)) by lia. rewrite !rsum_S, rsum_even_odd. unfold xg, xk, wg, wk. replace (S (2 * p)) with (2 * p + 1)%nat by lia. ring.
Qed.

(** ** Exactness on monomials *)
Lemma odd_int k : Int1 (fun x => x ^ (2 * k + 1)) 0.
Proof.
  assert (D : forall x, is_derive (fun x => x ^ (2 * k + 2) / INR (2 * k + 2)) x (x ^ (2 * k + 1))).
  { intros x. assert (NZ : INR (2 * k + 2) <> 0) by (apply not_0_INR; lia). auto_derive; [easy|]. replace (k + (k + 0) + 2)%nat with (2 * k + 2)%nat by lia. replace (Nat.pred (2 * k + 2)) with (2 * k + 1)%nat by lia. field. easy. }
  unfold Int1. evar_last; [apply (is_RInt_derive (fun x => x ^ (2 * k + 2) / INR (2 * k + 2)) (fun x => x ^ (2 * k + 1)) (-1) 1)|].
  - intros x _. apply D.
  - intros x _. apply (ex_derive_continuous (K := R_AbsRing) (V := R_NormedModule)). auto_derive. easy.
  - replace (2 * k + 2)%nat with (2 * (k + 1))%nat by lia. rewrite pow1, pow_1_even.
    change (1 / INR (2 * (k + 1)) - 1 / INR (2 * (k + 1)) = 0). ring.
Qed.
Section Kron.
  Context (n : nat) (lam : nat -> R) (V : nat -> nat -> R).
  Hypothesis Hn : (1 <= n)%nat.
  Let b := kronrod_b n.
  Hypothesis Hb : forall k, (k < 2 * n)%nat -> 0 < b k.
  Hypothesis HE : eigdec (S (2 * n)) (tri b (fun _ => 0)) lam V.
  Hypothesis HS : forall i j, (i < j < S (2 * n))%nat -> lam i < lam j.
  Let W := fun i => 2 * eigvec1 b (lam i) (S (2 * n)) 0 ^ 2.
  Definition full_rule (F : R -> R) : R := rsum (fun i => W i * F (lam i)) (S (2 * n)).
  Lemma W_sym i : (i < S (2 * n))%nat -> W (2 * n - i)%nat = W i.
  Proof.
    intros Hi. unfold W. rewrite !eigvec1_vp, !vp_0 by lia. rewrite (lam_sym b (2 * n) lam V Hb HE HS i Hi). now rewrite vnorm_sym.
  Qed.
  Lemma lam_mid : lam n = 0.
  Proof. pose proof (lam_sym b (2 * n) lam V Hb HE HS n ltac:(lia)) as H. replace (2 * n - n)%nat with n in H by lia. lra. Qed.
  Lemma full_rule_sym F : full_rule F = rsum (fun i => W i * (F (lam i) + F (- lam i))) n + W n * F 0.
  Proof.
    unfold full_rule. replace (S (2 * n)) with (n + S n)%nat by lia. rewrite rsum_app, rsum_shift, Nat.add_0_r, lam_mid.
    assert (E : rsum (fun k => W (n + S k)%nat * F (lam (n + S k)%nat)) n = rsum (fun i => W i * F (- lam i)) n).
    { rewrite rsum_rev. apply rsum_ext. intros i Hi. replace (n + S (n - 1 - i))%nat with (2 * n - i)%nat by lia. rewrite W_sym by lia. now rewrite (lam_sym b (2 * n) lam V Hb HE HS i) by lia. }
    rewrite E. rewrite (rsum_ext (fun i => W i * (F (lam i) + F (- lam i))) (fun i => W i * F (lam i) + W i * F (- lam i))) by (intros; ring). rewrite rsum_plus. ring.
  Qed.
  Lemma full_rule_mono k : (k <= 2 * KK n + 1)%nat -> Int1 (fun x => x ^ k) (full_rule (fun x => x ^ k)).
  Proof.
    intros Hk. pose proof (KK_bounds n) as KB. destruct (Nat.Even_or_Odd k) as [[p E]|[p E]].
    - apply (agree_mono b (2 * n) (KK n) lam W).
      + intros j Hj. now apply kronrod_b_legendre.
      + intros m1 m2 H1 H2. assert (HK : (KK n <= 2 * n)%nat) by lia. pose proof (lam_ortho b (2 * n) Hb lam V HE m1 m2 ltac:(lia) ltac:(lia)) as O.
        rewrite <- O. apply rsum_ext. intros i Hi. unfold W. rewrite (lam_weight b (2 * n) Hb lam V HE i Hi). unfold pp.
        rewrite !(vp_ext (al b (2 * n)) b (lam i)) by (intros; apply al_b; lia). reflexivity.
      + lia.
    - eapply Int_cast'; [eapply Int1_ext; [|apply (odd_int p)]; intros x; cbv beta; now rewrite E|].
      rewrite full_rule_sym, E. rewrite pow_i by lia. rewrite rsum_0; [ring|]. intros i Hi.
      replace ((- lam i) ^ (2 * p + 1)) with (- lam i ^ (2 * p + 1)); [ring|].
      replace (- lam i) with (-1 * lam i) by ring. rewrite Rpow_mult_distr. replace (2 * p + 1)%nat with (S (2 * p)) by lia. rewrite pow_1_odd. ring.
  Qed.
  Lemma full_rule_poly F d : (d <= 2 * KK n + 1)%nat -> poly1 d F -> Int1 F (full_rule F).
  Proof.
    intros Hd (c & Hc).
    assert (P : forall m, (m <= S (2 * KK n + 1))%nat -> Int1 (fun x => rsum (fun k => c k * x ^ k) m) (full_rule (fun x => rsum (fun k => c k * x ^ k) m))).
    { induction m as [|m IH]; intros Hm.
      - eapply Int_cast'; [eapply Int1_ext; [|apply (Int1_scal 0 _ _ (full_rule_mono 0 ltac:(lia)))]; intros x; cbn [rsum]; ring|].
        unfold full_rule. rewrite (rsum_0 (fun i => W i * rsum (fun k => c k * lam i ^ k) 0)) by (intros; cbn [rsum]; ring). ring.
      - eapply Int_cast'; [eapply Int1_ext; [|apply (Int1_plus _ _ _ _ (IH ltac:(lia)) (Int1_scal (c m) _ _ (full_rule_mono m ltac:(lia))))]; intros x; cbv beta; now rewrite rsum_S|].
        unfold full_rule. rewrite <- rsum_scal, <- rsum_plus. apply rsum_ext. intros i _. rewrite rsum_S. ring. }
    eapply Int_cast'; [eapply Int1_ext; [|apply (P (S d) ltac:(lia))]; intros x; cbv beta; symmetry; apply Hc|].
    unfold full_rule. apply rsum_ext. intros i _. now rewrite Hc.
  Qed.
End Kron.
