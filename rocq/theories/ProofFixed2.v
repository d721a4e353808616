(** * Fixed-point check of a rule: moments of simplices and cubes, rounding of the data *)
From Coq Require Import List Arith Bool ZArith Reals Lra Lia Uint63 Factorial.
From Verif Require Import RSum SpecIndex SpecPoly ProofDirichlet ProofFixed.
Import ListNotations.
Local Open Scope R_scope.

Lemma B56_pos : 0 < IZR B56.
Proof. apply IZR_lt. reflexivity. Qed.


(** floor(a / b) * unit is within a unit of a / b *)
Lemma floor_err (a b : Z) : (0 < b)%Z -> IZR a / IZR b - 1 <= IZR (a / b) <= IZR a / IZR b.
Proof.
  intros Hb. pose proof (Z.mul_div_le a b Hb) as H1. pose proof (Z.mul_succ_div_gt a b Hb) as H2.
  apply IZR_le in H1. apply IZR_lt in H2. unfold Z.succ in H2. rewrite mult_IZR in H1, H2. rewrite plus_IZR in H2.
  assert (P : 0 < IZR b) by now apply IZR_lt. split.
  - apply Rmult_le_reg_r with (IZR b); [easy|]. unfold Rdiv. rewrite Rmult_minus_distr_r, Rmult_assoc, Rinv_l by lra. lra.
  - apply Rmult_le_reg_r with (IZR b); [easy|]. unfold Rdiv. rewrite Rmult_assoc, Rinv_l by lra. lra.
Qed.

(** ** Moments of the unit simplex, with respect to the normalised measure *)
Definition smom (d : nat) (e : list nat) : R := INR (fact d) * prodfact e / INR (fact (total e + d)).
Definition snext (d : int) (T0 T k s : int) : int := (T * (k + 1) / (s + 1 + d))%uint63.

Lemma smom_0 d pre : smom d (0%nat :: pre) = smom d pre.
Proof. unfold smom. rewrite prodfact_cons. change (total (0%nat :: pre)) with (total pre). cbn [fact INR]. f_equal. ring. Qed.
Lemma smom_S d k pre : smom d (S k :: pre) = smom d (k :: pre) * (INR (k + 1) / INR (total (k :: pre) + 1 + d)).
Proof.
  unfold smom. rewrite !prodfact_cons. replace (total (S k :: pre) + d)%nat with (S (total (k :: pre) + d)) by (unfold total; cbn [fold_right]; lia).
  rewrite !fact_simpl, !mult_INR. replace (total (k :: pre) + 1 + d)%nat with (S (total (k :: pre) + d)) by lia. rewrite Nat.add_1_r.
  field. split; [apply not_0_INR; lia|apply INR_fact_neq_0].
Qed.
Lemma smom_nil d : smom d [] = 1.
Proof. unfold smom. change (prodfact []) with (INR 1). change (total [] + d)%nat with d. cbn [INR]. field. apply INR_fact_neq_0. Qed.
Lemma smom_rev d e : smom d (rev e) = smom d e.
Proof.
  assert (H : prodfact (rev e) = prodfact e /\ total (rev e) = total e).
  { induction e as [|k e (I1 & I2)]; [easy|]. cbn [rev]. split.
    - rewrite prodfact_app, I1, !prodfact_cons. change (prodfact []) with (INR 1). cbn [INR]. ring.
    - unfold total in *. rewrite fold_right_app. cbn [fold_right]. rewrite <- I2. clear. generalize (rev e). intros l. induction l as [|a l IH]; cbn [fold_right]; lia. }
  unfold smom. destruct H as (-> & ->). reflexivity.
Qed.

Lemma snext_ok d di : (d <= 100)%nat -> to_Z di = Z.of_nat d -> forall dmax, (dmax <= 60)%nat ->
  forall pre k T0 T ki si, goodT (smom d) pre T0 -> goodT (smom d) (k :: pre) T ->
    to_Z ki = Z.of_nat k -> to_Z si = Z.of_nat (total (k :: pre)) -> (total (k :: pre) < dmax)%nat -> goodT (smom d) (S k :: pre) (snext di T0 T ki si).
Proof.
  intros Hd Hdi dmax Hm pre k T0 T ki si _ (HC & HB) Hk Hs Ht.
  set (s := total (k :: pre)) in *. assert (Ks : (k <= s)%nat) by (subst s; unfold total; cbn [fold_right]; lia).
  assert (W : wB = (128 * B56)%Z) by reflexivity. assert (W2 : B56 = 72057594037927936%Z) by reflexivity.
  pose proof (to_Z_bounded T) as BT.
  assert (E : to_Z (snext di T0 T ki si) = (to_Z T * Z.of_nat (k + 1) / Z.of_nat (s + 1 + d))%Z).
  { unfold snext. rewrite div_spec, mul_spec, !add_spec, Hk, Hs, Hdi. change (to_Z 1) with 1%Z.
    rewrite (Z.mod_small (Z.of_nat k + 1)) by lia. rewrite (Z.mod_small (Z.of_nat s + 1)) by lia.
    rewrite (Z.mod_small (Z.of_nat s + 1 + Z.of_nat d)) by lia. rewrite Z.mod_small by nia. f_equal; lia. }
  split.
  - unfold close in *. rewrite E, smom_S. fold s. replace (1 + total (S k :: pre))%nat with (S (1 + s)) by (subst s; unfold total; cbn [fold_right]; lia).
    rewrite S_INR. set (r := INR (k + 1) / INR (s + 1 + d)).
    assert (Pd : 0 < INR (s + 1 + d)) by (apply lt_0_INR; lia).
    assert (Hr : 0 <= r <= 1).
    { unfold r. split.
      - apply Rmult_le_pos; [apply pos_INR|left; now apply Rinv_0_lt_compat].
      - apply Rmult_le_reg_r with (INR (s + 1 + d)); [easy|]. unfold Rdiv. rewrite Rmult_assoc, Rinv_l by lra. rewrite Rmult_1_r, Rmult_1_l. apply le_INR. lia. }
    pose proof (floor_err (to_Z T * Z.of_nat (k + 1)) (Z.of_nat (s + 1 + d)) ltac:(lia)) as F. rewrite mult_IZR, <- !INR_IZR_INZ in F.
    replace (IZR (to_Z T) * INR (k + 1) / INR (s + 1 + d)) with (IZR (to_Z T) * r) in F by (unfold r; field; lra).
    pose proof B56_pos as PB. set (A := IZR (to_Z T * Z.of_nat (k + 1) / Z.of_nat (s + 1 + d))) in *. set (v := smom d (k :: pre)) in *. set (t := IZR (to_Z T)) in *.
    assert (HC' : Rabs (t - v * IZR B56) <= INR (1 + s)).
    { replace (t - v * IZR B56) with ((t / IZR B56 - v) * IZR B56) by (field; lra). rewrite Rabs_mult, (Rabs_pos_eq (IZR B56)) by lra.
      apply Rmult_le_reg_r with (/ IZR B56); [now apply Rinv_0_lt_compat|]. rewrite Rmult_assoc, Rinv_r, Rmult_1_r by lra. exact HC. }
    replace (A / IZR B56 - v * r) with ((A - v * IZR B56 * r) * / IZR B56) by (field; lra).
    rewrite Rabs_mult, (Rabs_pos_eq (/ IZR B56)) by (left; now apply Rinv_0_lt_compat). unfold Rdiv.
    apply Rmult_le_compat_r; [left; now apply Rinv_0_lt_compat|].
    replace (A - v * IZR B56 * r) with ((A - t * r) + (t - v * IZR B56) * r) by ring.
    eapply Rle_trans; [apply Rabs_triang|]. rewrite Rplus_comm. apply Rplus_le_compat.
    + rewrite Rabs_mult, (Rabs_pos_eq r) by lra. pose proof (Rabs_pos (t - v * IZR B56)). nra.
    + apply Rabs_le. lra.
  - rewrite E. apply Z.le_trans with (to_Z T); [|easy]. apply Z.div_le_upper_bound; [lia|]. nia.
Qed.

(** ** Moments of the unit cube *)
Definition cmom (e : list nat) : R := fold_right Rmult 1 (map (fun k => / INR (k + 1)) e).
Definition cnext (T0 T k s : int) : int := (T0 / (k + 2))%uint63.
Lemma cmom_cons k pre : cmom (k :: pre) = / INR (k + 1) * cmom pre.
Proof. reflexivity. Qed.
Lemma cmom_0 pre : cmom (0%nat :: pre) = cmom pre.
Proof. rewrite cmom_cons. cbn [Nat.add INR]. field. Qed.
Lemma cmom_rev e : cmom (rev e) = cmom e.
Proof.
  unfold cmom. induction e as [|k e IH]; [reflexivity|]. cbn [rev]. rewrite map_app, fold_right_app. cbn [map fold_right]. rewrite <- IH. rewrite Rmult_1_r.
  generalize (map (fun k0 => / INR (k0 + 1)) (rev e)). intros l. induction l as [|a l IHl]; cbn [fold_right]; [ring|]. rewrite IHl. ring.
Qed.
Lemma cnext_ok dmax : (dmax <= 60)%nat -> forall pre k T0 T ki si, goodT cmom pre T0 -> goodT cmom (k :: pre) T ->
    to_Z ki = Z.of_nat k -> to_Z si = Z.of_nat (total (k :: pre)) -> (total (k :: pre) < dmax)%nat -> goodT cmom (S k :: pre) (cnext T0 T ki si).
Proof.
  intros Hm pre k T0 T ki si (HC & HB) _ Hk Hs Ht.
  set (s := total (k :: pre)) in *. assert (Ks : (k + total pre = s)%nat) by (subst s; unfold total; cbn [fold_right]; lia).
  assert (W : wB = (128 * B56)%Z) by reflexivity. assert (W2 : B56 = 72057594037927936%Z) by reflexivity.
  pose proof (to_Z_bounded T0) as BT.
  assert (E : to_Z (cnext T0 T ki si) = (to_Z T0 / Z.of_nat (k + 2))%Z).
  { unfold cnext. rewrite div_spec, add_spec, Hk. change (to_Z 2) with 2%Z. rewrite Z.mod_small by lia. f_equal. lia. }
  split.
  - unfold close in *. rewrite E, cmom_cons. replace (1 + total (S k :: pre))%nat with (S (1 + s)) by (rewrite <- Ks; unfold total; cbn [fold_right]; lia).
    replace (S k + 1)%nat with (k + 2)%nat by lia. rewrite S_INR. set (r := / INR (k + 2)).
    assert (Pd : 1 <= INR (k + 2)) by (apply (le_INR 1); lia).
    assert (Hr : 0 <= r <= 1).
    { unfold r. split; [left; apply Rinv_0_lt_compat; lra|]. rewrite <- Rinv_1. apply Rinv_le_contravar; lra. }
    pose proof (floor_err (to_Z T0) (Z.of_nat (k + 2)) ltac:(lia)) as F. rewrite <- !INR_IZR_INZ in F. unfold Rdiv in F. fold r in F.
    pose proof B56_pos as PB. set (A := IZR (to_Z T0 / Z.of_nat (k + 2))) in *. set (v := cmom pre) in *. set (t := IZR (to_Z T0)) in *.
    assert (HC' : Rabs (t - v * IZR B56) <= INR (1 + s)).
    { apply Rle_trans with (INR (1 + total pre)); [|apply le_INR; lia].
      replace (t - v * IZR B56) with ((t / IZR B56 - v) * IZR B56) by (field; lra). rewrite Rabs_mult, (Rabs_pos_eq (IZR B56)) by lra.
      apply Rmult_le_reg_r with (/ IZR B56); [now apply Rinv_0_lt_compat|]. rewrite Rmult_assoc, Rinv_r, Rmult_1_r by lra. exact HC. }
    replace (A / IZR B56 - r * v) with ((A - v * IZR B56 * r) * / IZR B56) by (field; lra).
    rewrite Rabs_mult, (Rabs_pos_eq (/ IZR B56)) by (left; now apply Rinv_0_lt_compat). unfold Rdiv.
    apply Rmult_le_compat_r; [left; now apply Rinv_0_lt_compat|].
    replace (A - v * IZR B56 * r) with ((A - t * r) + (t - v * IZR B56) * r) by ring.
    eapply Rle_trans; [apply Rabs_triang|]. rewrite Rplus_comm. apply Rplus_le_compat.
    + rewrite Rabs_mult, (Rabs_pos_eq r) by lra. pose proof (Rabs_pos (t - v * IZR B56)). nra.
    + apply Rabs_le. lra.
  - rewrite E. apply Z.le_trans with (to_Z T0); [|easy]. apply Z.div_le_upper_bound; [lia|]. nia.
Qed.

(** ** The check *)
Definition check_rule (next : int -> int -> int -> int -> int) (tol : int) (n : nat) (rows : list (list int)) (ws : list int) : bool :=
  (zsum ws <? wB)%Z && (n <=? 60)%nat && (tol <=? 72057594037927936)%uint63
  && moments next (within tol) rows n ws 72057594037927936%uint63 0%uint63.

(** Halved weights; the sums are those of the rule. *)
Definition power_sum (rs : list (list R)) (ws : list R) (e : list nat) : R := lsum (rprods rs e ws).
Lemma check_sound mom next tol n rows ws rs vs :
  (forall pre, mom (0%nat :: pre) = mom pre) -> mom [] = 1 ->
  (forall pre k T0 T ki si, goodT mom pre T0 -> goodT mom (k :: pre) T ->
    to_Z ki = Z.of_nat k -> to_Z si = Z.of_nat (total (k :: pre)) -> (total (k :: pre) < 60)%nat -> goodT mom (S k :: pre) (next T0 T ki si)) ->
  check_rule next tol n rows ws = true ->
  Forall2 (Forall2 (approx 2)) rows rs -> Forall (Forall unitv) rs -> Forall2 (approx 2) ws vs -> Forall unitv vs ->
  Forall (fun r : list R => length r = length vs) rs ->
  forall e, length e = length rs -> (total e <= n)%nat ->
  Rabs (2 * power_sum rs vs e - mom (rev e)) <= (IZR (to_Z tol) + 2 + INR n) / IZR B56 + 2 * (INR (length vs) * (2 + 3 * INR n)) / IZR wB.
Proof.
  intros M0 M1 NX H HR HU HW HV HL e L Le. unfold check_rule in H. apply andb_true_iff in H. destruct H as (H & HM).
  apply andb_true_iff in H. destruct H as (H & Ht). apply andb_true_iff in H. destruct H as (H & Hn).
  apply Z.ltb_lt in H. apply Nat.leb_le in Hn. apply leb_spec in Ht.
  assert (Ht' : (to_Z tol <= B56)%Z) by exact Ht.
  assert (LR : length rows = length rs) by (clear -HR; induction HR; cbn [length]; auto).
  destruct (moments_spec mom next 60 (within tol) M0 NX (le_n 60) rows n ws _ _ [] HM) with (e := e) as (T & HT & (C & D)).
  - split; [|now compute]. unfold close. rewrite M1. change (to_Z 72057594037927936%uint63) with B56. pose proof B56_pos.
    replace (IZR B56 / IZR B56 - 1) with 0 by (field; lra). rewrite Rabs_R0. apply Rmult_le_pos; [apply pos_INR|left; now apply Rinv_0_lt_compat].
  - reflexivity.
  - exact Hn.
  - congruence.
  - exact Le.
  - rewrite app_nil_r in C. pose proof (within_spec _ _ _ HT D Ht') as HS.
    assert (Z1 : (zsum (prods rows e ws) < wB)%Z) by (pose proof (prods_zsum e rows ws); lia).
    rewrite isum_value in HS by (change (to_Z 0) with 0%Z; lia). change (to_Z 0) with 0%Z in HS. rewrite Z.add_0_l in HS.
    pose proof (prods_approx e 2 rows rs ws vs HR HU HW HV ltac:(congruence)) as HP.
    pose proof (approx_sum _ _ _ HP) as HQ. fold (power_sum rs vs e) in HQ.
    destruct (rprods_spec e rs vs HL L) as (LP & _). rewrite LP in HQ.
    unfold close in C. set (S := IZR (zsum (prods rows e ws)) / IZR wB) in *. set (t := IZR (to_Z T) / IZR B56) in *. set (P := power_sum rs vs e) in *.
    replace (2 * P - mom (rev e)) with (- (2 * (S - P)) + ((S * 2 - t) + (t - mom (rev e)))) by ring.
    eapply Rle_trans; [apply Rabs_triang|]. rewrite Rabs_Ropp, Rabs_mult, (Rabs_pos_eq 2) by lra. rewrite Rplus_comm. apply Rplus_le_compat.
    + eapply Rle_trans; [apply Rabs_triang|]. replace ((IZR (to_Z tol) + 2 + INR n) / IZR B56) with ((IZR (to_Z tol) + 1) / IZR B56 + (1 + INR n) / IZR B56) by (unfold Rdiv; ring).
      apply Rplus_le_compat; [exact HS|]. eapply Rle_trans; [exact C|]. unfold Rdiv. apply Rmult_le_compat_r; [left; apply Rinv_0_lt_compat, B56_pos|].
      rewrite plus_INR. cbn [INR]. apply Rplus_le_compat_l, le_INR.
      assert (TR : total (rev e) = total e).
      { clear. unfold total. induction e as [|k e IH]; [reflexivity|]. cbn [rev]. rewrite fold_right_app. cbn [fold_right]. rewrite <- IH.
        generalize (rev e). intros l. induction l as [|a l IHl]; cbn [fold_right]; lia. }
      rewrite TR. exact Le.
    + pose proof wB_pos. replace (2 * (INR (length vs) * (2 + 3 * INR n)) / IZR wB) with (2 * (INR (length vs) * (2 + 3 * INR n) / IZR wB)) by (field; lra).
      apply Rmult_le_compat_l; [lra|]. eapply Rle_trans; [exact HQ|]. unfold Rdiv. apply Rmult_le_compat_r; [left; now apply Rinv_0_lt_compat|].
      apply Rmult_le_compat_l; [apply pos_INR|]. apply Rplus_le_compat_l, Rmult_le_compat_l; [lra|]. now apply le_INR.
Qed.

(** ** Rounding the data *)
(** num / den, which lies in [0, 1] *)
Definition fx (den num : Z) : int := of_Z (Z.min (num * wB / den) (wB - 1)).
Lemma fx_approx den num v : (0 < den)%Z -> (0 <= num <= den)%Z -> Rabs (IZR num / IZR den - v) <= 1 / IZR wB -> approx 2 (fx den num) v.
Proof.
  intros Hd Hn Hv. unfold approx, fxv, fx. assert (HB : (0 < wB)%Z) by reflexivity. pose proof wB_pos as PB.
  assert (D0 : (0 <= num * wB / den)%Z) by (apply Z.div_pos; nia). rewrite of_Z_spec, Z.mod_small by lia.
  set (q := (num * wB / den)%Z) in *.
  assert (Pd : 0 < IZR den) by now apply IZR_lt.
  assert (F : IZR num / IZR den * IZR wB - 1 <= IZR (Z.min q (wB - 1)) <= IZR num / IZR den * IZR wB).
  { pose proof (floor_err (num * wB) den Hd) as F. fold q in F. rewrite mult_IZR in F.
    replace (IZR num * IZR wB / IZR den) with (IZR num / IZR den * IZR wB) in F by (field; lra).
    destruct (Z.min_spec q (wB - 1)) as [(_ & ->)|(Hq & ->)]; [exact F|].
    split; [|pose proof (IZR_le _ _ Hq); lra]. rewrite minus_IZR. apply Rplus_le_compat_r.
    rewrite <- (Rmult_1_l (IZR wB)) at 2. apply Rmult_le_compat_r; [lra|]. apply Rmult_le_reg_r with (IZR den); [easy|].
    unfold Rdiv. rewrite Rmult_assoc, Rinv_l, Rmult_1_r, Rmult_1_l by lra. apply IZR_le. lia. }
  set (m := IZR (Z.min q (wB - 1))) in *.
  replace (m / IZR wB - v) with ((m / IZR wB - IZR num / IZR den) + (IZR num / IZR den - v)) by ring.
  eapply Rle_trans; [apply Rabs_triang|]. replace (2 / IZR wB) with (1 / IZR wB + 1 / IZR wB) by (field; lra). apply Rplus_le_compat; [|exact Hv].
  replace (m / IZR wB - IZR num / IZR den) with ((m - IZR num / IZR den * IZR wB) * / IZR wB) by (field; lra).
  rewrite Rabs_mult, (Rabs_pos_eq (/ IZR wB)) by (left; now apply Rinv_0_lt_compat). unfold Rdiv. apply Rmult_le_compat_r; [left; now apply Rinv_0_lt_compat|].
  apply Rabs_le. lra.
Qed.
