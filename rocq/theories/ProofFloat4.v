(** * Dot products and transformed rules in double precision *)
From Flocq Require Import Core Relative Plus_error.
From Coquelicot Require Import Coquelicot.
From Coq Require Import List Arith Bool ZArith Reals Permutation Lra Lia.
From Verif Require Import Py PyToolsModel ModelNd ModelShapes ModelSpaces ModelNodes ModelQuad ModelFloat ProofFloat.
Import ListNotations.
Local Open Scope R_scope.

Definition eta64 : R := bpow radix2 (-1075).
Lemma eta64_pos : 0 < eta64.
Proof. apply bpow_gt_0. Qed.
Lemma eta64_half : / 2 * bpow radix2 (-1074) = eta64.
Proof. unfold eta64. change (-1074)%Z with (-1075 + 1)%Z. rewrite bpow_plus. change (bpow radix2 1) with 2. lra. Qed.
Lemma u_ro_64 : u_ro radix2 53 = u64.
Proof. unfold u_ro. rewrite u64_bpow. change (- (53) + 1)%Z with (-53 + 1)%Z. rewrite bpow_plus. change (bpow radix2 1) with 2. lra. Qed.
Lemma u_ro_le : u_ro radix2 53 / (1 + u_ro radix2 53) <= u64.
Proof.
  rewrite u_ro_64. pose proof u64_small. apply Rmult_le_reg_r with (1 + u64); [lra|]. unfold Rdiv. rewrite Rmult_assoc, Rinv_l by lra. assert (0 <= u64 * u64) by (apply Rmult_le_pos; lra). lra.
Qed.
Lemma rnd_rel x : exists d e, Rabs d <= u64 /\ Rabs e <= eta64 /\ rnd64 x = x * (1 + d) + e.
Proof.
  destruct (relative_error_N_FLT'_ex radix2 (-1074) 53 ltac:(reflexivity) (fun x => negb (Z.even x)) x) as (d & e & Hd & He & _ & E).
  exists d, e. split; [eapply Rle_trans; [exact Hd|exact u_ro_le]|]. split; [rewrite <- eta64_half; exact He|exact E].
Qed.
Lemma rnd_plus x y : fmt x -> fmt y -> exists d, Rabs d <= u64 /\ rnd64 (x + y) = (x + y) * (1 + d).
Proof.
  intros Hx Hy. destruct (FLT_plus_error_N_ex radix2 (-1074) 53 (fun x => negb (Z.even x)) x y Hx Hy) as (d & Hd & E).
  exists d. split; [eapply Rle_trans; [exact Hd|exact u_ro_le]|exact E].
Qed.
Lemma fmt_0 : fmt 0.
Proof. apply (fmt_Z 0), Z.leb_le, eq_refl. Qed.
Lemma rnd_0 : rnd64 0 = 0.
Proof. apply rnd_id, fmt_0. Qed.
Lemma fmt_opp x : fmt x -> fmt (- x).
Proof. apply generic_format_opp. Qed.

(** ** Dot products *)
Definition dot_sum (l : list (R * R)) : R := fold_right Rplus 0 (map (fun p => fst p * snd p) l).
Definition dot_abs (l : list (R * R)) : R := fold_right Rplus 0 (map (fun p => Rabs (fst p * snd p)) l).
Lemma fold_app (l m : list R) : fold_right Rplus 0 (l ++ m) = fold_right Rplus 0 l + fold_right Rplus 0 m.
Proof. induction l as [|x l IH]; cbn [app fold_right]; [ring|rewrite IH; ring]. Qed.
Lemma fold_perm (l m : list R) : Permutation l m -> fold_right Rplus 0 l = fold_right Rplus 0 m.
Proof. induction 1; cbn [fold_right]; lra. Qed.
Lemma dot_sum_app l m : dot_sum (l ++ m) = dot_sum l + dot_sum m.
Proof. unfold dot_sum. now rewrite map_app, fold_app. Qed.
Lemma dot_abs_app l m : dot_abs (l ++ m) = dot_abs l + dot_abs m.
Proof. unfold dot_abs. now rewrite map_app, fold_app. Qed.
Lemma dot_sum_perm l m : Permutation l m -> dot_sum l = dot_sum m.
Proof. intros H. apply fold_perm. now apply Permutation_map. Qed.
Lemma dot_abs_perm l m : Permutation l m -> dot_abs l = dot_abs m.
Proof. intros H. apply fold_perm. now apply Permutation_map. Qed.
Lemma dot_abs_nonneg l : 0 <= dot_abs l.
Proof. unfold dot_abs. induction l as [|p l IH]; cbn [map fold_right]; [lra|]. pose proof (Rabs_pos (fst p * snd p)). lra. Qed.
Lemma dot_sum_abs l : Rabs (dot_sum l) <= dot_abs l.
Proof. unfold dot_sum, dot_abs. induction l as [|p l IH]; cbn [map fold_right]; [rewrite Rabs_R0; lra|]. eapply Rle_trans; [apply Rabs_triang|]. lra. Qed.

Lemma dot64_fmt l x : dot64 l x -> fmt x.
Proof. induction 1; try apply rnd_fmt; [apply fmt_0|easy]. Qed.
Lemma dot64_nil_inv l x : dot64 l x -> l = [] -> x = 0.
Proof.
  induction 1 as [|a b|l m x y H1 IH1 H2 IH2|l x a b H IH|l m x HP H IH]; intros E; try discriminate; [reflexivity| | |].
  - apply app_eq_nil in E. destruct E as [-> ->]. rewrite IH1, IH2 by easy. rewrite Rplus_0_r. apply rnd_0.
  - apply app_eq_nil in E. destruct E as [_ E]. discriminate.
  - subst m. apply IH. apply Permutation_nil. now apply Permutation_sym.
Qed.
Definition g64 (n : nat) : R := (1 + u64) ^ n.
Lemma g64_1 n : 1 <= g64 n.
Proof. unfold g64. pose proof u64_small. apply pow_R1_Rle. lra. Qed.
Lemma g64_S n : g64 (S n) = (1 + u64) * g64 n.
Proof. reflexivity. Qed.
Lemma g64_mono n m : (n <= m)%nat -> g64 n <= g64 m.
Proof. intros H. unfold g64. pose proof u64_small. apply Rle_pow; [lra|easy]. Qed.
Definition err64 (l : list (R * R)) : R := (g64 (length l) - 1) * dot_abs l + INR (length l) * g64 (length l) * eta64.

Lemma step64 p n S E : (p < n)%nat -> 0 <= S -> E <= (g64 p - 1) * S + INR p * g64 p * eta64 ->
  (1 + u64) * E + u64 * S <= (g64 n - 1) * S + INR p * g64 n * eta64.
Proof.
  intros H HS HE. pose proof u64_small as U. pose proof eta64_pos as ET. pose proof (g64_mono (Datatypes.S p) n H) as M. rewrite g64_S in M. pose proof (g64_1 p). pose proof (pos_INR p).
  apply Rle_trans with ((1 + u64) * ((g64 p - 1) * S + INR p * g64 p * eta64) + u64 * S).
  { apply Rplus_le_compat_r, Rmult_le_compat_l; lra. }
  replace ((1 + u64) * ((g64 p - 1) * S + INR p * g64 p * eta64) + u64 * S) with (((1 + u64) * g64 p - 1) * S + INR p * ((1 + u64) * g64 p) * eta64) by ring.
  apply Rplus_le_compat; [apply Rmult_le_compat_r; lra|]. apply Rmult_le_compat_r; [lra|]. apply Rmult_le_compat_l; lra.
Qed.
Lemma rel_step s S x e d c : Rabs s <= S -> Rabs (x - s) <= e -> Rabs d <= u64 -> Rabs c <= eta64 -> Rabs (x * (1 + d) + c - s) <= (1 + u64) * e + u64 * S + eta64.
Proof.
  intros H1 H2 H3 H4. replace (x * (1 + d) + c - s) with ((x - s) * (1 + d) + s * d + c) by ring. pose proof u64_small.
  eapply Rle_trans; [apply Rabs_triang|]. apply Rplus_le_compat; [|easy]. eapply Rle_trans; [apply Rabs_triang|]. rewrite !Rabs_mult. pose proof (Rabs_pos (x - s)). pose proof (Rabs_pos s). pose proof (Rabs_pos d).
  apply Rplus_le_compat.
  - rewrite Rmult_comm. apply Rmult_le_compat; [apply Rabs_pos|lra| |easy]. eapply Rle_trans; [apply Rabs_triang|]. rewrite Rabs_R1. lra.
  - rewrite Rmult_comm. apply Rmult_le_compat; lra.
Qed.
Lemma dot64_err l x : dot64 l x -> Rabs (x - dot_sum l) <= err64 l.
Proof.
  pose proof u64_small as U. pose proof eta64_pos as ET.
  induction 1 as [|a b|l m x y H1 IH1 H2 IH2|l x a b H IH|l m x HP H IH].
  - unfold err64, dot_sum, dot_abs. cbn [length map fold_right INR]. rewrite Rminus_0_r, Rabs_R0. lra.
  - destruct (rnd_rel (a * b)) as (d & c & Hd & Hc & ->). unfold err64, dot_sum, dot_abs, g64. cbn [length map fold_right INR fst snd pow]. rewrite !Rplus_0_r.
    pose proof (rel_step (a * b) (Rabs (a * b)) (a * b) 0 d c (Rle_refl _) ltac:(rewrite Rminus_eq_0, Rabs_R0; lra) Hd Hc).
    assert (0 <= u64 * eta64) by (apply Rmult_le_pos; lra). lra.
  - destruct l as [|p0 l0] eqn:EL.
    { cbn [app]. rewrite (dot64_nil_inv _ _ H1 eq_refl), Rplus_0_l, rnd_id; [exact IH2|eapply dot64_fmt; exact H2]. }
    destruct m as [|q0 m0] eqn:EM.
    { rewrite app_nil_r. rewrite (dot64_nil_inv _ _ H2 eq_refl), Rplus_0_r, rnd_id; [exact IH1|eapply dot64_fmt; exact H1]. }
    rewrite <- EL, <- EM in *. assert (LL : (0 < length l)%nat) by (rewrite EL; cbn; lia). assert (LM : (0 < length m)%nat) by (rewrite EM; cbn; lia). clear EL EM.
    destruct (rnd_plus x y (dot64_fmt _ _ H1) (dot64_fmt _ _ H2)) as (d & Hd & ->). rewrite dot_sum_app.
    pose proof (step64 (length l) (length l + length m) (dot_abs l) _ ltac:(lia) (dot_abs_nonneg l) IH1) as S1.
    pose proof (step64 (length m) (length l + length m) (dot_abs m) _ ltac:(lia) (dot_abs_nonneg m) IH2) as S2.
    unfold err64 at 1. rewrite app_length, dot_abs_app, plus_INR.
    pose proof (rel_step (dot_sum l) (dot_abs l) x _ d 0 (dot_sum_abs l) (Rle_refl _) Hd ltac:(rewrite Rabs_R0; lra)) as R1.
    replace ((x + y) * (1 + d) - (dot_sum l + dot_sum m)) with ((x * (1 + d) + 0 - dot_sum l) + (y * (1 + d) + 0 - dot_sum m)) by ring.
    assert (RS : forall s S z, Rabs s <= S -> Rabs (z * (1 + d) + 0 - s) <= (1 + u64) * Rabs (z - s) + u64 * S).
    { clear -U Hd. intros s S z Hs. replace (z * (1 + d) + 0 - s) with ((z - s) * (1 + d) + s * d) by ring. eapply Rle_trans; [apply Rabs_triang|]. rewrite !Rabs_mult.
      pose proof (Rabs_pos (z - s)). pose proof (Rabs_pos s). pose proof (Rabs_pos d). apply Rplus_le_compat.
      - rewrite Rmult_comm. apply Rmult_le_compat_r; [easy|]. eapply Rle_trans; [apply Rabs_triang|]. rewrite Rabs_R1. lra.
      - rewrite Rmult_comm. apply Rmult_le_compat; lra. }
    pose proof (RS _ _ x (dot_sum_abs l)). pose proof (RS _ _ y (dot_sum_abs m)). eapply Rle_trans; [apply Rabs_triang|].
    replace ((g64 (length l + length m) - 1) * (dot_abs l + dot_abs m) + (INR (length l) + INR (length m)) * g64 (length l + length m) * eta64)
      with (((g64 (length l + length m) - 1) * dot_abs l + INR (length l) * g64 (length l + length m) * eta64) + ((g64 (length l + length m) - 1) * dot_abs m + INR (length m) * g64 (length l + length m) * eta64)) by ring.
    lra.
  - destruct (rnd_rel (x + a * b)) as (d & c & Hd & Hc & ->).
    assert (E1 : Rabs (x + a * b - dot_sum (l ++ [(a, b)])) <= Rabs (x - dot_sum l)).
    { rewrite dot_sum_app. unfold dot_sum at 2. cbn [map fold_right fst snd]. rewrite Rplus_0_r. replace (x + a * b - (dot_sum l + a * b)) with (x - dot_sum l) by ring. lra. }
    pose proof (rel_step _ _ _ _ d c (dot_sum_abs (l ++ [(a, b)])) E1 Hd Hc) as R1. eapply Rle_trans; [exact R1|].
    pose proof (step64 (length l) (S (length l)) (dot_abs l) _ ltac:(lia) (dot_abs_nonneg l) IH) as S1.
    unfold err64. rewrite app_length. cbn [length]. rewrite Nat.add_1_r, dot_abs_app, S_INR.
    assert (AB : dot_abs [(a, b)] = Rabs (a * b)) by (unfold dot_abs; cbn [map fold_right fst snd]; ring). rewrite AB.
    pose proof (g64_1 (length l)) as G. assert (u64 * Rabs (a * b) <= (g64 (S (length l)) - 1) * Rabs (a * b)).
    { apply Rmult_le_compat_r; [apply Rabs_pos|]. rewrite g64_S. assert (u64 * 1 <= u64 * g64 (length l)) by (apply Rmult_le_compat_l; lra). lra. }
    assert (1 * eta64 <= g64 (S (length l)) * eta64) by (apply Rmult_le_compat_r; [lra|apply g64_1]). lra.
  - rewrite (dot_sum_perm _ _ (Permutation_sym HP)). unfold err64 in *. rewrite <- (Permutation_length HP), <- (dot_abs_perm _ _ HP). exact IH.
Qed.

(** Exactness: all products integer multiples of a power of two, with sum of moduli below 2^53 of it. *)
Definition multiple (e : Z) (x : R) : Prop := exists m, x = IZR m * bpow radix2 e.
Lemma fmt_multiple e x : (-1074 <= e)%Z -> multiple e x -> Rabs x <= bpow radix2 (53 + e) -> fmt x.
Proof.
  intros He (m & ->) H. rewrite Rabs_mult, (Rabs_right (bpow radix2 e)), bpow_plus in H by (apply Rle_ge, bpow_ge_0). apply Rmult_le_reg_r in H; [|apply bpow_gt_0].
  rewrite <- abs_IZR in H. change (bpow radix2 53) with (IZR (2 ^ 53)) in H. apply le_IZR in H.
  destruct (Z.eq_dec (Z.abs m) (2 ^ 53)) as [E|E].
  - assert (F : fmt (bpow radix2 (53 + e))) by (apply generic_format_bpow; unfold FLT_exp; lia).
    assert (m = 2 ^ 53 \/ m = - 2 ^ 53)%Z as [->| ->] by lia.
    + replace (IZR (2 ^ 53) * bpow radix2 e) with (bpow radix2 (53 + e)) by (rewrite bpow_plus; reflexivity). exact F.
    + rewrite opp_IZR. replace (- IZR (2 ^ 53) * bpow radix2 e) with (- bpow radix2 (53 + e)) by (rewrite bpow_plus; change (bpow radix2 53) with (IZR (2 ^ 53)); ring). now apply fmt_opp.
  - apply generic_format_FLT. apply FLT_spec with (Float radix2 m e); [reflexivity| |exact He]. cbn [Fnum]. change (radix2 ^ 53)%Z with (2 ^ 53)%Z. lia.
Qed.
Lemma multiple_plus e x y : multiple e x -> multiple e y -> multiple e (x + y).
Proof. intros (m & ->) (n & ->). exists (m + n)%Z. rewrite plus_IZR. ring. Qed.
Lemma multiple_sum e l : Forall (fun p => multiple e (fst p * snd p)) l -> multiple e (dot_sum l).
Proof. unfold dot_sum. induction 1 as [|p l H HF IH]; cbn [map fold_right]; [exists 0%Z; ring|now apply multiple_plus]. Qed.
Lemma dot64_exact e l x : (-1074 <= e)%Z -> dot64 l x -> Forall (fun p => multiple e (fst p * snd p)) l -> dot_abs l <= bpow radix2 (53 + e) -> x = dot_sum l.
Proof.
  intros He. induction 1 as [|a b|l m x y H1 IH1 H2 IH2|l x a b H IH|l m x HP H IH]; intros HF HB.
  - reflexivity.
  - inversion HF as [|? ? HM _]; subst. cbn [fst snd] in HM. unfold dot_abs in HB. cbn [map fold_right fst snd] in HB. rewrite Rplus_0_r in HB. unfold dot_sum. cbn [map fold_right fst snd]. rewrite Rplus_0_r.
    apply rnd_id. now apply (fmt_multiple e).
  - pose proof HF as HF0. apply Forall_app in HF. destruct HF as [F1 F2]. pose proof HB as HB0. rewrite dot_abs_app in HB. pose proof (dot_abs_nonneg l). pose proof (dot_abs_nonneg m).
    rewrite IH1, IH2 by (auto; lra). rewrite <- dot_sum_app. apply rnd_id, (fmt_multiple e); auto; [now apply multiple_sum|]. eapply Rle_trans; [apply dot_sum_abs|exact HB0].
  - pose proof HF as HF0. apply Forall_app in HF. destruct HF as [F1 F2]. pose proof HB as HB0. rewrite dot_abs_app in HB. pose proof (dot_abs_nonneg [(a, b)]).
    rewrite IH by (auto; lra). assert (E : dot_sum l + a * b = dot_sum (l ++ [(a, b)])) by (rewrite dot_sum_app; unfold dot_sum; cbn [map fold_right fst snd]; ring). rewrite E.
    apply rnd_id, (fmt_multiple e); auto; [now apply multiple_sum|]. eapply Rle_trans; [apply dot_sum_abs|exact HB0].
  - rewrite <- (dot_sum_perm _ _ HP). apply IH; [|now rewrite (dot_abs_perm _ _ HP)]. rewrite Forall_forall in *. intros p Hp. apply HF. eapply Permutation_in; eauto.
Qed.
Lemma dot64_nonneg l x : dot64 l x -> Forall (fun p => 0 <= fst p * snd p) l -> 0 <= x.
Proof.
  assert (R : forall z, 0 <= z -> 0 <= rnd64 z) by (intros z Hz; rewrite <- rnd_0; now apply rnd_mono).
  induction 1 as [|a b|l m x y H1 IH1 H2 IH2|l x a b H IH|l m x HP H IH]; intros HF.
  - lra.
  - inversion HF; subst. now apply R.
  - apply Forall_app in HF. destruct HF as [F1 F2]. specialize (IH1 F1). specialize (IH2 F2). apply R. lra.
  - apply Forall_app in HF. destruct HF as [F1 F2]. specialize (IH F1). inversion F2; subst. cbn [fst snd] in *. apply R. lra.
  - apply IH. rewrite Forall_forall in *. intros p Hp. apply HF. eapply Permutation_in; eauto.
Qed.
Lemma dot64_exists l : exists x, dot64 l x.
Proof.
  induction l as [|p l (x & Hx)] using rev_ind; [exists 0; constructor|]. destruct p as [a b]. eexists. apply dot64_fma. exact Hx.
Qed.
