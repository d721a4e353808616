(** * Transformed rules in double precision *)
From Flocq Require Import Core Mult_error Relative Plus_error.
From Coquelicot Require Import Coquelicot.
From Coq Require Import List Arith Bool ZArith Reals Permutation Lra Lia.
From Verif Require Import Py PyToolsModel ModelNd ModelShapes ModelSpaces ModelNodes ModelQuad ModelFloat ProofFloat ProofFloat4.
Import ListNotations.
Local Open Scope R_scope.

Lemma len64 l r : fmt l -> fmt r -> exists d, Rabs d <= u64 /\ rnd64 (r - l) = (r - l) * (1 + d).
Proof. intros Hl Hr. exact (rnd_plus r (- l) Hr (fmt_opp l Hl)). Qed.
Lemma len64_pos l r : fmt l -> fmt r -> (rnd64 (r - l) <= 0 <-> r <= l).
Proof.
  intros Hl Hr. destruct (len64 l r Hl Hr) as (d & Hd & ->). apply Rabs_le_between in Hd. pose proof u64_small. assert (/ 10 ^ 15 < 1) by lra. split; intros H1.
  - destruct (Rle_lt_dec r l) as [K|K]; [easy|]. assert (0 < (r - l) * (1 + d)) by (apply Rmult_lt_0_compat; lra). lra.
  - assert (0 <= (l - r) * (1 + d)) by (apply Rmult_le_pos; lra). lra.
Qed.
Lemma rnd_nonneg x : 0 <= x -> 0 <= rnd64 x.
Proof. intros H. rewrite <- rnd_0. now apply rnd_mono. Qed.
Lemma tnode64_mono l L x y : 0 <= L -> x <= y -> tnode64 l L x <= tnode64 l L y.
Proof.
  intros HL H. unfold tnode64. apply rnd_mono, Rplus_le_compat_l, rnd_mono, Rmult_le_compat_r; [easy|]. apply rnd_mono. assert (rnd64 (x + 1) <= rnd64 (y + 1)) by (apply rnd_mono; lra). lra.
Qed.
Lemma tnode64_left l L : fmt l -> tnode64 l L (-1) = l.
Proof.
  intros Hl. unfold tnode64. replace (-1 + 1) with 0 by ring. rewrite rnd_0. unfold Rdiv. rewrite Rmult_0_l, rnd_0, Rmult_0_l, rnd_0, Rplus_0_r. now apply rnd_id.
Qed.
Lemma tnode64_right l L : fmt L -> tnode64 l L 1 = rnd64 (l + L).
Proof.
  intros HL. unfold tnode64. replace (1 + 1) with 2 by ring. rewrite (rnd_id 2) by (apply (fmt_Z 2), Z.leb_le, eq_refl). replace (2 / 2) with 1 by field. rewrite (rnd_id 1) by (apply (fmt_Z 1), Z.leb_le, eq_refl). rewrite Rmult_1_l. now rewrite (rnd_id L).
Qed.
(** [x + 1] is zero or not small, so that halving is exact. *)
Lemma fmt_fixed x : fmt x -> / 2 <= Rabs x <= 1 -> exists m, x = IZR m * bpow radix2 (-53).
Proof.
  intros F H. destruct (Req_dec (Rabs x) 1) as [E|E].
  - destruct (Rcase_abs x) as [K|K].
    + rewrite Rabs_left in E by easy. exists (- 2 ^ 53)%Z. change (bpow radix2 (-53)) with (/ 9007199254740992). change (IZR (- 2 ^ 53)) with (-9007199254740992). lra.
    + rewrite Rabs_right in E by easy. exists (2 ^ 53)%Z. change (bpow radix2 (-53)) with (/ 9007199254740992). change (IZR (2 ^ 53)) with 9007199254740992. lra.
  - assert (M : (mag radix2 x = 0 :> Z)%Z). { apply mag_unique. change (bpow radix2 (0 - 1)) with (/ 2). change (bpow radix2 0) with 1. lra. }
    unfold generic_format in F. assert (CE : cexp radix2 (FLT_exp (-1074) 53) x = (-53)%Z) by (unfold cexp; rewrite M; reflexivity). rewrite CE in F. rewrite F. eexists. reflexivity.
Qed.
Lemma plus_one_big x : fmt x -> -1 <= x <= 1 -> x = -1 \/ bpow radix2 (-53) <= x + 1.
Proof.
  intros F H. destruct (Rle_lt_dec x (- / 2)) as [K|K].
  - destruct (fmt_fixed x F) as (m & E); [rewrite Rabs_left by lra; lra|]. change (bpow radix2 (-53)) with (/ 9007199254740992) in *.
    destruct (Z_le_gt_dec m (- 2 ^ 53)) as [M|M].
    + left. apply IZR_le in M. change (IZR (- 2 ^ 53)) with (-9007199254740992) in M. lra.
    + right. assert (M' : (- 2 ^ 53 + 1 <= m)%Z) by lia. apply IZR_le in M'. change (IZR (- 2 ^ 53 + 1)) with (-9007199254740991) in M'. lra.
  - right. change (bpow radix2 (-53)) with (/ 9007199254740992). lra.
Qed.
Lemma half_exact x : fmt x -> -1 <= x <= 1 -> rnd64 (rnd64 (x + 1) / 2) = rnd64 (x + 1) / 2.
Proof.
  intros F H. apply rnd_id. destruct (plus_one_big x F H) as [->|B].
  - replace (-1 + 1) with 0 by ring. rewrite rnd_0. unfold Rdiv. rewrite Rmult_0_l. apply fmt_0.
  - assert (B' : bpow radix2 (-53) <= rnd64 (x + 1)).
    { rewrite <- (rnd_id (bpow radix2 (-53))) by (apply generic_format_bpow; vm_compute; discriminate). now apply rnd_mono. }
    assert (M : (-52 <= mag radix2 (rnd64 (x + 1)))%Z).
    { replace (-52)%Z with (mag radix2 (bpow radix2 (-53)) : Z) by (rewrite mag_bpow; reflexivity). apply mag_le; [apply bpow_gt_0|easy]. }
    unfold Rdiv. change (/ 2) with (bpow radix2 (-1)). apply mult_bpow_exact_FLT; [apply rnd_fmt|lia].
Qed.
Lemma tnode64_err l r x : fmt l -> fmt r -> l < r -> fmt x -> -1 <= x <= 1 ->
  Rabs (tnode64 l (rnd64 (r - l)) x - (l + (x + 1) / 2 * (r - l))) <= 4 * u64 * (r - l) + u64 * Rmax (Rabs l) (Rabs r) + 2 * eta64.
Proof.
  intros Hl Hr H Fx Hx. pose proof u64_small as U. pose proof eta64_pos as ET.
  unfold tnode64. rewrite half_exact by easy. destruct (len64 l r Hl Hr) as (d4 & H4 & E4).
  destruct (rnd_plus x 1 Fx ltac:(apply (fmt_Z 1), Z.leb_le, eq_refl)) as (d1 & H1 & E1).
  set (t := rnd64 (x + 1) / 2 * rnd64 (r - l)). destruct (rnd_rel t) as (d3 & e3 & H3 & He & E3).
  destruct (rnd_plus l (rnd64 t) Hl ltac:(apply rnd_fmt)) as (d5 & H5 & ->). set (s := (x + 1) / 2). assert (Hs : 0 <= s <= 1) by (unfold s; lra). set (L := r - l) in *. assert (HL : 0 < L) by (unfold L; lra).
  assert (Et : rnd64 t = s * L * ((1 + d1) * (1 + d4) * (1 + d3)) + e3). { rewrite E3. unfold t. rewrite E1, E4. unfold s. field. }
  assert (SL : 0 <= s * L <= L). { split; [apply Rmult_le_pos; lra|]. rewrite <- (Rmult_1_l L) at 2. apply Rmult_le_compat_r; lra. }
  assert (P : Rabs ((1 + d1) * (1 + d4) * (1 + d3) - 1) <= (1 + u64) ^ 3 - 1).
  { replace ((1 + d1) * (1 + d4) * (1 + d3) - 1) with (d1 + d4 + d3 + d1 * d4 + d1 * d3 + d4 * d3 + d1 * d4 * d3) by ring.
    replace ((1 + u64) ^ 3 - 1) with (u64 + u64 + u64 + u64 * u64 + u64 * u64 + u64 * u64 + u64 * u64 * u64) by ring.
    assert (Q : forall a b A B, Rabs a <= A -> Rabs b <= B -> Rabs (a * b) <= A * B) by (intros a b A B QA QB; rewrite Rabs_mult; apply Rmult_le_compat; auto using Rabs_pos).
    repeat (eapply Rle_trans; [apply Rabs_triang|]; apply Rplus_le_compat); auto. }
  assert (T : Rabs (rnd64 t - s * L) <= ((1 + u64) ^ 3 - 1) * L + eta64).
  { rewrite Et. replace (s * L * ((1 + d1) * (1 + d4) * (1 + d3)) + e3 - s * L) with (((1 + d1) * (1 + d4) * (1 + d3) - 1) * (s * L) + e3) by ring.
    eapply Rle_trans; [apply Rabs_triang|]. apply Rplus_le_compat; [|easy]. rewrite Rabs_mult, (Rabs_right (s * L)) by lra. apply Rmult_le_compat; [apply Rabs_pos|lra|easy|lra]. }
  assert (N : Rabs (l + s * L) <= Rmax (Rabs l) (Rabs r)).
  { apply Rabs_le_between. pose proof (Rmax_l (Rabs l) (Rabs r)). pose proof (Rmax_r (Rabs l) (Rabs r)). pose proof (Rle_abs r). pose proof (Rle_abs (- l)). rewrite Rabs_Ropp in *. unfold L in *. lra. }
  replace ((l + rnd64 t) * (1 + d5) - (l + s * L)) with ((rnd64 t - s * L) * (1 + d5) + (l + s * L) * d5) by ring.
  eapply Rle_trans; [apply Rabs_triang|]. rewrite !Rabs_mult.
  assert (D5 : Rabs (1 + d5) <= 1 + u64) by (eapply Rle_trans; [apply Rabs_triang|]; rewrite Rabs_R1; lra).
  assert (A1 : Rabs (rnd64 t - s * L) * Rabs (1 + d5) <= (((1 + u64) ^ 3 - 1) * L + eta64) * (1 + u64)) by (apply Rmult_le_compat; auto using Rabs_pos).
  assert (A2 : Rabs (l + s * L) * Rabs d5 <= Rmax (Rabs l) (Rabs r) * u64) by (apply Rmult_le_compat; auto using Rabs_pos).
  assert (U1 : u64 < / 100) by (eapply Rlt_trans; [exact (proj2 U)|apply Rinv_lt_contravar; lra]).
  assert (C : ((1 + u64) ^ 3 - 1) * (1 + u64) <= 4 * u64).
  { replace (((1 + u64) ^ 3 - 1) * (1 + u64)) with (u64 * (3 + 6 * u64 + 4 * (u64 * u64) + u64 * u64 * u64)) by ring. rewrite Rmult_comm. apply Rmult_le_compat_r; [lra|].
    assert (0 <= u64 * u64 <= / 100 * / 100) by (split; [apply Rmult_le_pos; lra|apply Rmult_le_compat; lra]). assert (u64 * u64 * u64 <= (/ 100 * / 100) * / 100) by (apply Rmult_le_compat; lra). lra. }
  assert (C2 : ((1 + u64) ^ 3 - 1) * (1 + u64) * L <= 4 * u64 * L) by (apply Rmult_le_compat_r; lra).
  assert (C3 : eta64 * (1 + u64) <= 2 * eta64) by (rewrite Rmult_comm; apply Rmult_le_compat_r; lra).
  lra.
Qed.
Lemma tweight64_err l r w : fmt l -> fmt r -> l < r ->
  Rabs (tweight64 (rnd64 (r - l)) w - (r - l) / 2 * w) <= 4 * u64 * ((r - l) / 2) * Rabs w + 2 * eta64 * (Rabs w + 1).
Proof.
  intros Hl Hr H. pose proof u64_small as U. pose proof eta64_pos as ET. unfold tweight64. destruct (len64 l r Hl Hr) as (d1 & H1 & ->). set (L := r - l) in *. assert (HL : 0 < L) by (unfold L; lra).
  destruct (rnd_rel (L * (1 + d1) / 2)) as (d2 & e2 & H2 & He2 & ->). destruct (rnd_rel ((L * (1 + d1) / 2 * (1 + d2) + e2) * w)) as (d3 & e3 & H3 & He3 & ->).
  assert (Q : forall a b A B, Rabs a <= A -> Rabs b <= B -> Rabs (a * b) <= A * B) by (intros a b A B QA QB; rewrite Rabs_mult; apply Rmult_le_compat; auto using Rabs_pos).
  assert (P : Rabs ((1 + d1) * (1 + d2) * (1 + d3) - 1) <= (1 + u64) ^ 3 - 1).
  { replace ((1 + d1) * (1 + d2) * (1 + d3) - 1) with (d1 + d2 + d3 + d1 * d2 + d1 * d3 + d2 * d3 + d1 * d2 * d3) by ring.
    replace ((1 + u64) ^ 3 - 1) with (u64 + u64 + u64 + u64 * u64 + u64 * u64 + u64 * u64 + u64 * u64 * u64) by ring.
    repeat (eapply Rle_trans; [apply Rabs_triang|]; apply Rplus_le_compat); auto. }
  replace ((L * (1 + d1) / 2 * (1 + d2) + e2) * w * (1 + d3) + e3 - L / 2 * w) with (((1 + d1) * (1 + d2) * (1 + d3) - 1) * (L / 2 * w) + (e2 * (1 + d3) * w + e3)) by field.
  assert (U1 : u64 < / 100) by (eapply Rlt_trans; [exact (proj2 U)|apply Rinv_lt_contravar; lra]).
  eapply Rle_trans; [apply Rabs_triang|]. pose proof (Rabs_pos w). apply Rplus_le_compat.
  - rewrite Rabs_mult. apply Rle_trans with (4 * u64 * Rabs (L / 2 * w)).
    + apply Rmult_le_compat_r; [apply Rabs_pos|]. eapply Rle_trans; [exact P|]. replace ((1 + u64) ^ 3 - 1) with (u64 * (3 + 3 * u64 + u64 * u64)) by ring. rewrite (Rmult_comm 4). apply Rmult_le_compat_l; [lra|].
      assert (u64 * u64 <= / 100 * / 100) by (apply Rmult_le_compat; lra). lra.
    + rewrite Rabs_mult, (Rabs_right (L / 2)) by lra. lra.
  - eapply Rle_trans; [apply Rabs_triang|]. assert (D3 : Rabs (1 + d3) <= 1 + u64) by (eapply Rle_trans; [apply Rabs_triang|]; rewrite Rabs_R1; lra).
    pose proof (Q _ _ _ _ (Q _ _ _ _ He2 D3) (Rle_refl (Rabs w))). assert (eta64 * (1 + u64) * Rabs w <= 2 * eta64 * Rabs w) by (apply Rmult_le_compat_r; [easy|]; rewrite Rmult_comm; apply Rmult_le_compat_r; lra). lra.
Qed.

(** The right end point may be missed. *)
Lemma right_missed : let l := -1 in let r := 3 * bpow radix2 (-54) in fmt l /\ fmt r /\ l < r /\ tnode64 l (rnd64 (r - l)) 1 = 4 * bpow radix2 (-54).
Proof.
  cbv zeta. assert (F1 : fmt (-1)) by (apply (fmt_Z (-1)), Z.leb_le, eq_refl). split; [easy|].
  assert (M54 : bpow radix2 (-54) = / 18014398509481984) by reflexivity.
  split. { apply (fmt_multiple (-54)); [lia|now exists 3%Z|]. change (53 + -54)%Z with (-1)%Z. change (bpow radix2 (-1)) with (/ 2). rewrite M54, Rabs_right; lra. }
  split; [rewrite M54; lra|].
  assert (E : rnd64 (3 * bpow radix2 (-54) - -1) = 1 + 4 * bpow radix2 (-54)).
  { unfold rnd64, round, F2R, scaled_mantissa. assert (CE : cexp radix2 (FLT_exp (-1074) 53) (3 * bpow radix2 (-54) - -1) = (-52)%Z).
    { unfold cexp. rewrite (mag_unique _ _ 1%Z); [reflexivity|]. change (bpow radix2 (1 - 1)) with 1. change (bpow radix2 1) with 2. rewrite M54, Rabs_right; lra. }
    rewrite CE. cbn [Fnum Fexp]. rewrite (Znearest_imp _ _ (4503599627370497)%Z).
    - change (bpow radix2 (-52)) with (/ 4503599627370496). rewrite M54. lra.
    - change (bpow radix2 (- -52)) with 4503599627370496. rewrite M54. apply Rabs_def1; lra. }
  rewrite tnode64_right by apply rnd_fmt. rewrite E. replace (-1 + (1 + 4 * bpow radix2 (-54))) with (4 * bpow radix2 (-54)) by ring. apply rnd_id.
  apply (fmt_multiple (-54)); [lia|now exists 4%Z|]. change (53 + -54)%Z with (-1)%Z. change (bpow radix2 (-1)) with (/ 2). rewrite M54, Rabs_right; lra.
Qed.
