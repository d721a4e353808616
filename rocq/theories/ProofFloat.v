(** * Rounding of equispaced nodes *)
From Flocq Require Import Core Mult_error Relative Sterbenz.
From Coquelicot Require Import Coquelicot.
From Coq Require Import List Arith Bool ZArith Reals Lra Lia.
From Verif Require Import ModelFloat.
Import ListNotations.
Local Open Scope R_scope.

Notation fmt := (generic_format radix2 (FLT_exp (-1074) 53)).
#[export] Instance prec53 : Prec_gt_0 53. Proof. reflexivity. Qed.

Definition u64 : R := / 2 ^ 53.
Lemma u64_bpow : u64 = bpow radix2 (-53).
Proof. unfold u64. change (bpow radix2 (-53)) with (/ IZR (Z.pow_pos 2 53)). f_equal. rewrite pow_IZR. f_equal. Qed.
Lemma u64_small : 0 < u64 < / 10 ^ 15.
Proof.
  unfold u64. split; [apply Rinv_0_lt_compat, pow_lt; lra|]. apply Rinv_lt_contravar; [apply Rmult_lt_0_compat; apply pow_lt; lra|].
  rewrite !pow_IZR. apply IZR_lt. reflexivity.
Qed.
Lemma rnd_mono x y : x <= y -> rnd64 x <= rnd64 y.
Proof. apply round_le; typeclasses eauto. Qed.
Lemma rnd_id x : fmt x -> rnd64 x = x.
Proof. apply round_generic. typeclasses eauto. Qed.
Lemma rnd_fmt x : fmt (rnd64 x).
Proof. apply generic_format_round; typeclasses eauto. Qed.
Lemma fmt_Z m : (Z.abs m <= 2 ^ 53)%Z -> fmt (IZR m).
Proof.
  intros H. destruct (Z.eq_dec (Z.abs m) (2 ^ 53)) as [E|E].
  - assert (X : fmt (bpow radix2 53)) by (apply generic_format_bpow; vm_compute; discriminate).
    assert (Y : bpow radix2 53 = IZR (2 ^ 53)) by (symmetry; apply (IZR_Zpower radix2 53); lia). rewrite Y in X.
    destruct (Z.abs_eq_or_opp m) as [A|A]; rewrite A in E.
    + now rewrite E.
    + assert (m = - 2 ^ 53)%Z as -> by lia. rewrite opp_IZR. now apply generic_format_opp.
  - apply generic_format_FLT. exists (Float radix2 m 0); cbn [Fnum Fexp]; [|change (Zpower radix2 53) with (2 ^ 53)%Z; lia|lia].
    unfold F2R. cbn [Fnum Fexp bpow]. ring.
Qed.
Lemma fmt_double x : fmt x -> fmt (x * 2).
Proof. intros H. change 2 with (bpow radix2 1). now apply mult_bpow_pos_exact_FLT. Qed.
Lemma rnd_err x : Rabs x <= 1 -> Rabs (rnd64 x - x) <= u64.
Proof.
  intros H. eapply Rle_trans; [apply error_le_half_ulp; typeclasses eauto|].
  assert (U : ulp radix2 (FLT_exp (-1074) 53) x <= ulp radix2 (FLT_exp (-1074) 53) 1).
  { apply ulp_le; try typeclasses eauto. rewrite Rabs_R1. exact H. }
  change 1 with (bpow radix2 0) in U at 1. rewrite ulp_bpow in U. change (FLT_exp (-1074) 53 (0 + 1)) with (-52)%Z in U.
  rewrite u64_bpow. change (bpow radix2 (-53)) with (bpow radix2 (-1 + -52)). rewrite bpow_plus. change (bpow radix2 (-1)) with (/ 2). lra.
Qed.

(** ** One coordinate *)
Section Coord.
  Context (n : nat).
  Hypothesis Hn : (0 < n)%nat.
  Let P : 0 < INR n := lt_0_INR n Hn.
  Lemma quot_range t : (t <= n)%nat -> 0 <= INR t / INR n <= 1.
  Proof.
    intros H. split; [apply Rmult_le_pos; [apply pos_INR|now apply Rlt_le, Rinv_0_lt_compat]|].
    apply Rmult_le_reg_r with (INR n); [easy|]. unfold Rdiv. rewrite Rmult_assoc, Rinv_l, Rmult_1_r, Rmult_1_l by lra. now apply le_INR.
  Qed.
  Lemma node64_eq t : node64 n t = rnd64 (rnd64 (INR t / INR n) * 2 - 1).
  Proof. unfold node64. now rewrite (rnd_id (rnd64 (INR t / INR n) * 2)) by apply fmt_double, rnd_fmt. Qed.
  Lemma quot64_range t : (t <= n)%nat -> 0 <= rnd64 (INR t / INR n) <= 1.
  Proof.
    intros H. destruct (quot_range t H) as [A B]. apply rnd_mono in A. apply rnd_mono in B. rewrite (rnd_id 0) in A by apply (fmt_Z 0), Z.leb_le, eq_refl. rewrite (rnd_id 1) in B by apply (fmt_Z 1), Z.leb_le, eq_refl. now split.
  Qed.
  Lemma node64_range t : (t <= n)%nat -> -1 <= node64 n t <= 1.
  Proof.
    intros H. rewrite node64_eq. destruct (quot64_range t H) as [A B]. set (r := rnd64 (INR t / INR n)) in *.
    assert (A' : -1 <= r * 2 - 1) by lra. assert (B' : r * 2 - 1 <= 1) by lra. apply rnd_mono in A'. apply rnd_mono in B'.
    rewrite (rnd_id (-1)) in A' by apply (fmt_Z (-1)), Z.leb_le, eq_refl. rewrite (rnd_id 1) in B' by apply (fmt_Z 1), Z.leb_le, eq_refl. now split.
  Qed.
  Lemma node64_0 : node64 n 0 = -1.
  Proof.
    rewrite node64_eq. replace (INR 0 / INR n) with 0 by (cbn [INR]; unfold Rdiv; ring). rewrite (rnd_id 0) by apply (fmt_Z 0), Z.leb_le, eq_refl.
    replace (0 * 2 - 1) with (-1) by ring. apply rnd_id, (fmt_Z (-1)), Z.leb_le, eq_refl.
  Qed.
  Lemma node64_n : node64 n n = 1.
  Proof.
    rewrite node64_eq. replace (INR n / INR n) with 1 by (field; lra). rewrite (rnd_id 1) by apply (fmt_Z 1), Z.leb_le, eq_refl.
    replace (1 * 2 - 1) with 1 by ring. apply rnd_id, (fmt_Z 1), Z.leb_le, eq_refl.
  Qed.
  Lemma node64_mono s t : (s <= t)%nat -> node64 n s <= node64 n t.
  Proof.
    intros H. rewrite !node64_eq. apply rnd_mono. assert (rnd64 (INR s / INR n) <= rnd64 (INR t / INR n)); [|lra].
    apply rnd_mono. apply Rmult_le_compat_r; [now apply Rlt_le, Rinv_0_lt_compat|now apply le_INR].
  Qed.
  Lemma node64_err t : (t <= n)%nat -> Rabs (node64 n t - (INR t / INR n * 2 - 1)) <= 3 * u64.
  Proof.
    intros H. rewrite node64_eq. destruct (quot_range t H) as [A B]. destruct (quot64_range t H) as [C D].
    set (q := INR t / INR n) in *. set (r := rnd64 q) in *.
    assert (E1 : Rabs (r - q) <= u64) by (apply rnd_err; rewrite Rabs_right; lra).
    assert (E2 : Rabs (rnd64 (r * 2 - 1) - (r * 2 - 1)) <= u64) by (apply rnd_err; apply Rabs_le; lra).
    apply Rabs_le_between in E1. apply Rabs_le_between in E2. apply Rabs_le. lra.
  Qed.
  (** Exact for powers of two. *)
  Lemma node64_exact k t : n = (2 ^ k)%nat -> (k <= 52)%nat -> (t <= n)%nat -> node64 n t = INR t / INR n * 2 - 1.
  Proof.
    intros E K H. assert (EN : INR n = bpow radix2 (Z.of_nat k)).
    { rewrite E, pow_INR, bpow_powerRZ, <- pow_powerRZ. f_equal. }
    assert (F : forall m : Z, (Z.abs m <= 2 ^ 53)%Z -> fmt (IZR m * bpow radix2 (- Z.of_nat k))).
    { intros m Hm. apply generic_format_FLT. destruct (Z.eq_dec (Z.abs m) (2 ^ 53)) as [Em|Em].
      - assert (Hm' : (m = 2 * (m / 2))%Z).
        { destruct (Z.abs_eq_or_opp m) as [A|A]; rewrite A in Em; assert (X : (m = 2 ^ 53 \/ m = - 2 ^ 53)%Z) by lia; destruct X as [->| ->]; reflexivity. }
        exists (Float radix2 (m / 2) (1 - Z.of_nat k)); cbn [Fnum Fexp]; [|change (Zpower radix2 53) with (2 ^ 53)%Z; lia|lia].
        unfold F2R. cbn [Fnum Fexp]. rewrite Hm' at 1. rewrite mult_IZR. unfold Z.sub. rewrite (bpow_plus radix2 1). change (bpow radix2 1) with 2. ring.
      - exists (Float radix2 m (- Z.of_nat k)); cbn [Fnum Fexp]; [reflexivity|change (Zpower radix2 53) with (2 ^ 53)%Z; lia|lia]. }
    assert (EI : / INR n = bpow radix2 (- Z.of_nat k)) by (rewrite bpow_opp, EN; reflexivity).
    assert (HN : (Z.of_nat n <= 2 ^ 52)%Z).
    { rewrite E. rewrite Nat2Z.inj_pow. change (Z.of_nat 2) with 2%Z. apply Z.pow_le_mono_r; lia. }
    rewrite node64_eq. unfold Rdiv. rewrite EI. rewrite (rnd_id (INR t * bpow radix2 (- Z.of_nat k))).
    2:{ rewrite INR_IZR_INZ. apply F. lia. }
    apply rnd_id. replace (INR t * bpow radix2 (- Z.of_nat k) * 2 - 1) with (IZR (2 * Z.of_nat t - Z.of_nat n) * bpow radix2 (- Z.of_nat k)).
    - apply F. lia.
    - rewrite minus_IZR, mult_IZR, <- !INR_IZR_INZ. rewrite <- EI. field. lra.
  Qed.
  (** Strictly increasing for all practical orders. *)
  Lemma node64_lt s t : (Z.of_nat n <= 2 ^ 51)%Z -> (s < t <= n)%nat -> node64 n s < node64 n t.
  Proof.
    intros HN [H1 H2]. pose proof (node64_err s ltac:(lia)) as E1. pose proof (node64_err t H2) as E2.
    apply Rabs_le_between in E1. apply Rabs_le_between in E2.
    assert (G : INR t / INR n - INR s / INR n >= / INR n).
    { apply Rle_ge. assert (INR s + 1 <= INR t) by (rewrite <- S_INR; now apply le_INR). apply Rmult_le_reg_r with (INR n); [easy|].
      replace ((INR t / INR n - INR s / INR n) * INR n) with (INR t - INR s) by (field; lra). rewrite Rinv_l by lra. lra. }
    assert (N : / 2 ^ 51 <= / INR n).
    { apply Rinv_le_contravar; [easy|]. rewrite INR_IZR_INZ, pow_IZR. apply IZR_le. exact HN. }
    assert (U : / 2 ^ 51 = 4 * u64).
    { unfold u64. change 53%nat with (2 + 51)%nat. rewrite pow_add. field. }
    pose proof u64_small. lra.
  Qed.
End Coord.
