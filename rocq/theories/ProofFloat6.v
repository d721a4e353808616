(** * Products of quadrature weights in double precision *)
From Flocq Require Import Core Relative.
From Coquelicot Require Import Coquelicot.
From Coq Require Import List Arith Bool ZArith Reals Permutation Lra Lia.
From Verif Require Import Py PyToolsModel ModelNd ModelShapes ModelSpaces ModelNodes ModelQuad EnumFacts SpecIndex ProofNodeTuples ProofTPNodes ProofQuad ModelFloat ProofFloat ProofFloat4.
Import ListNotations.
Local Open Scope R_scope.

Definition mul (l : list R) : R := fold_right Rmult 1 l.
Lemma mul_app l m : mul (l ++ m) = mul l * mul m.
Proof. unfold mul. induction l as [|x l IH]; cbn [app fold_right]; [ring|rewrite IH; ring]. Qed.
Lemma mul_perm l m : Permutation l m -> mul l = mul m.
Proof. unfold mul. induction 1; cbn [fold_right]; [easy|now rewrite IHPermutation|ring|congruence]. Qed.
Lemma mul_zero l : In 0 l -> mul l = 0.
Proof. unfold mul. induction l as [|x l IH]; cbn [fold_right]; intros H; [easy|]. destruct H as [->|H]; [ring|rewrite IH by easy; ring]. Qed.

Lemma prod64_nil_inv l x : prod64 l x -> l = [] -> x = 1.
Proof.
  assert (F1 : fmt 1) by (apply (fmt_Z 1), Z.leb_le, eq_refl).
  induction 1 as [|a|l m x y H1 IH1 H2 IH2|l m x HP H IH]; intros E; try discriminate; [reflexivity| |].
  - apply app_eq_nil in E. destruct E as [-> ->]. rewrite IH1, IH2 by easy. rewrite Rmult_1_r. now apply rnd_id.
  - subst m. apply IH. apply Permutation_nil. now apply Permutation_sym.
Qed.
Lemma prod64_fmt l x : prod64 l x -> Forall fmt l -> fmt x.
Proof.
  induction 1 as [|a|l m x y H1 IH1 H2 IH2|l m x HP H IH]; intros HF.
  - apply (fmt_Z 1), Z.leb_le, eq_refl.
  - now inversion HF.
  - apply rnd_fmt.
  - apply IH. eapply Permutation_Forall; [apply Permutation_sym; exact HP|exact HF].
Qed.
Lemma prod64_zero l x : prod64 l x -> In 0 l -> x = 0.
Proof.
  induction 1 as [|a|l m x y H1 IH1 H2 IH2|l m x HP H IH]; intros HI.
  - easy.
  - now destruct HI.
  - apply in_app_iff in HI. destruct HI as [HI|HI]; [rewrite IH1 by easy; rewrite Rmult_0_l|rewrite IH2 by easy; rewrite Rmult_0_r]; apply rnd_0.
  - apply IH. eapply Permutation_in; [apply Permutation_sym; exact HP|exact HI].
Qed.
Lemma rel_mul d e a b : Rabs d <= a -> Rabs e <= b -> Rabs ((1 + d) * (1 + e) - 1) <= (1 + a) * (1 + b) - 1.
Proof.
  intros Hd He. replace ((1 + d) * (1 + e) - 1) with (d + e + d * e) by ring. eapply Rle_trans; [apply Rabs_triang|].
  pose proof (Rabs_triang d e). rewrite Rabs_mult. pose proof (Rabs_pos d). pose proof (Rabs_pos e). assert (Rabs d * Rabs e <= a * b) by (apply Rmult_le_compat; easy). lra.
Qed.
Lemma fmt_bpow e : (-1074 <= e)%Z -> fmt (bpow radix2 e).
Proof. intros H. apply generic_format_FLT_bpow; [reflexivity|easy]. Qed.
Lemma rnd_rel_normal x : bpow radix2 (-1022) <= Rabs x -> exists d, Rabs d <= u64 /\ rnd64 x = x * (1 + d).
Proof.
  intros H. destruct (relative_error_N_FLT_ex radix2 (-1074) 53 ltac:(reflexivity) (fun x => negb (Z.even x)) x H) as (d & Hd & E).
  exists d. split; [|exact E]. eapply Rle_trans; [exact Hd|]. rewrite u64_bpow. change (- (53) + 1)%Z with (-53 + 1)%Z. rewrite bpow_plus. change (bpow radix2 1) with 2. lra.
Qed.
Definition ranged (k : nat) (w : R) : Prop := bpow radix2 (- Z.of_nat k) <= Rabs w <= bpow radix2 (Z.of_nat k).
Lemma prod64_rel k l x : prod64 l x -> Forall fmt l -> Forall (ranged k) l -> (k * length l <= 1022)%nat ->
  ranged (k * length l) x /\ exists d, Rabs d <= g64 (length l - 1) - 1 /\ x = mul l * (1 + d).
Proof.
  induction 1 as [|a|l m x y H1 IH1 H2 IH2|l m x HP H IH]; intros HF HR HK.
  - unfold ranged. rewrite Nat.mul_0_r. cbn [length Nat.sub]. change (bpow radix2 (- Z.of_nat 0)) with 1. change (bpow radix2 (Z.of_nat 0)) with 1. rewrite Rabs_R1. split; [lra|].
    exists 0. rewrite Rabs_R0. unfold g64, mul. cbn. lra.
  - cbn [length Nat.sub]. rewrite Nat.mul_1_r. split; [now inversion HR|]. exists 0. rewrite Rabs_R0. unfold g64, mul. cbn. split; [lra|ring].
  - apply Forall_app in HF, HR. destruct HF as [F1 F2], HR as [R1 R2]. rewrite app_length in *. pose proof (prod64_fmt _ _ H1 F1) as Fx. pose proof (prod64_fmt _ _ H2 F2) as Fy.
    destruct (IH1 F1 R1 ltac:(lia)) as (A1 & d1 & D1 & E1). destruct (IH2 F2 R2 ltac:(lia)) as (A2 & d2 & D2 & E2).
    destruct l as [|l0 l]. { rewrite (prod64_nil_inv _ _ H1 eq_refl), Rmult_1_l, (rnd_id _ Fy). cbn [length app Nat.add]. split; [easy|]. now exists d2. }
    destruct m as [|m0 m]. { rewrite (prod64_nil_inv _ _ H2 eq_refl), Rmult_1_r, (rnd_id _ Fx), app_nil_r, Nat.add_0_r. split; [easy|]. now exists d1. }
    set (p := length (l0 :: l)) in *. set (q := length (m0 :: m)) in *. assert (P : (1 <= p)%nat) by (unfold p; cbn; lia). assert (Q : (1 <= q)%nat) by (unfold q; cbn; lia).
    assert (B : ranged (k * (p + q)) (x * y)).
    { unfold ranged in *. rewrite Nat.mul_add_distr_l, Nat2Z.inj_add, Z.opp_add_distr, !bpow_plus, Rabs_mult. split; apply Rmult_le_compat; try apply bpow_ge_0; try apply Rabs_pos; easy. }
    split.
    + unfold ranged. unfold rnd64. split; [apply abs_round_ge_generic|apply abs_round_le_generic]; try apply FLT_exp_valid; try reflexivity; try apply valid_rnd_N; try apply (fmt_bpow _); try apply B; lia.
    + destruct (rnd_rel_normal (x * y)) as (d & Hd & E). { eapply Rle_trans; [|apply B]. apply bpow_le. lia. }
      exists ((1 + d1) * (1 + d2) * (1 + d) - 1). split; [|rewrite E, E1, E2, mul_app; ring].
      replace ((1 + d1) * (1 + d2) * (1 + d) - 1) with ((1 + ((1 + d1) * (1 + d2) - 1)) * (1 + d) - 1) by ring.
      eapply Rle_trans; [apply rel_mul; [apply rel_mul; [exact D1|exact D2]|exact Hd]|].
      apply Req_le. replace (p + q - 1)%nat with (S ((p - 1) + (q - 1))) by lia. unfold g64. cbn [pow]. rewrite pow_add. ring.
  - rewrite <- (Permutation_length HP), <- (mul_perm _ _ HP). apply IH; [| |now rewrite (Permutation_length HP)]; eapply Permutation_Forall; try (apply Permutation_sym; exact HP); easy.
Qed.
(** zeros allowed *)
Lemma prod64_err k l x : prod64 l x -> Forall fmt l -> Forall (fun w => w = 0 \/ ranged k w) l -> (k * length l <= 1022)%nat ->
  Rabs (x - mul l) <= (g64 (length l - 1) - 1) * Rabs (mul l).
Proof.
  intros H HF HR HK. destruct (in_dec Req_EM_T 0 l) as [HI|HI].
  - rewrite (prod64_zero _ _ H HI), (mul_zero _ HI), Rminus_0_r, Rabs_R0. lra.
  - assert (HR' : Forall (ranged k) l). { apply Forall_forall. intros w Hw. rewrite Forall_forall in HR. destruct (HR w Hw) as [->|]; easy. }
    destruct (prod64_rel k l x H HF HR' HK) as (_ & d & Hd & E). rewrite E. replace (mul l * (1 + d) - mul l) with (d * mul l) by ring. rewrite Rabs_mult.
    apply Rmult_le_compat_r; [apply Rabs_pos|easy].
Qed.
Lemma mul_perturb eps l L : 0 <= eps -> Forall2 (fun v w => Rabs (v - w) <= eps * Rabs w) l L -> Rabs (mul l - mul L) <= ((1 + eps) ^ length L - 1) * Rabs (mul L).
Proof.
  intros He. unfold mul. induction 1 as [|v w l L H HF IH]; cbn [fold_right length pow]; [rewrite Rminus_eq_0, Rabs_R0; lra|].
  set (a := fold_right Rmult 1 l) in *. set (b := fold_right Rmult 1 L) in *. replace (v * a - w * b) with ((v - w) * (a - b) + ((v - w) * b + w * (a - b))) by ring.
  pose proof (Rabs_pos w). pose proof (Rabs_pos b). pose proof (Rabs_pos (v - w)). pose proof (Rabs_pos (a - b)). set (g := (1 + eps) ^ length L) in *. rewrite (Rabs_mult w b).
  eapply Rle_trans; [apply Rabs_triang|]. rewrite (Rabs_mult (v - w) (a - b)). eapply Rle_trans; [apply Rplus_le_compat_l, Rabs_triang|]. rewrite (Rabs_mult (v - w) b), (Rabs_mult w).
  assert (Rabs (v - w) * Rabs (a - b) <= eps * Rabs w * ((g - 1) * Rabs b)) by (apply Rmult_le_compat; easy).
  assert (Rabs (v - w) * Rabs b <= eps * Rabs w * Rabs b) by (apply Rmult_le_compat_r; easy).
  assert (Rabs w * Rabs (a - b) <= Rabs w * ((g - 1) * Rabs b)) by (apply Rmult_le_compat_l; easy). nra.
Qed.
Lemma prod64_total k eps l L x : 0 <= eps -> prod64 l x -> Forall fmt l -> Forall (fun w => w = 0 \/ ranged k w) l -> (k * length l <= 1022)%nat ->
  Forall2 (fun v w => Rabs (v - w) <= eps * Rabs w) l L ->
  Rabs (x - mul L) <= ((1 + eps) ^ length L * g64 (length L - 1) - 1) * Rabs (mul L).
Proof.
  intros He H HF HR HK H2. pose proof (prod64_err k l x H HF HR HK) as A. pose proof (mul_perturb eps l L He H2) as B. rewrite (EnumFacts.Forall2_length _ _ _ H2) in A.
  set (G := g64 (length L - 1)) in *. assert (1 <= G) by apply g64_1. set (e := (1 + eps) ^ length L) in *. pose proof (Rabs_pos (mul L)).
  assert (C : Rabs (mul l) <= e * Rabs (mul L)). { replace (mul l) with ((mul l - mul L) + mul L) by ring. eapply Rle_trans; [apply Rabs_triang|]. lra. }
  replace (x - mul L) with ((x - mul l) + (mul l - mul L)) by ring. eapply Rle_trans; [apply Rabs_triang|].
  assert ((G - 1) * Rabs (mul l) <= (G - 1) * (e * Rabs (mul L))) by (apply Rmult_le_compat_l; lra). nra.
Qed.
Lemma prod64_exists l : exists x, prod64 l x.
Proof.
  induction l as [|a l (x & IH)]; [exists 1; constructor|]. exists (rnd64 (a * x)). change (a :: l) with ([a] ++ l). now constructor; [constructor|].
Qed.
Lemma prod64_nonneg l x : prod64 l x -> Forall (fun w => 0 <= w) l -> 0 <= x.
Proof.
  induction 1 as [|a|l m x y H1 IH1 H2 IH2|l m x HP H IH]; intros HF; [lra|now inversion HF| |].
  - apply Forall_app in HF. destruct HF as [F1 F2]. rewrite <- rnd_0. apply round_le; try apply FLT_exp_valid; try reflexivity; try apply valid_rnd_N. apply Rmult_le_pos; auto.
  - apply IH. eapply Permutation_Forall; [apply Permutation_sym; exact HP|exact HF].
Qed.
(** powers of two *)
Definition pow2 (k : nat) (w : R) : Prop := exists e : Z, (- Z.of_nat k <= e <= Z.of_nat k)%Z /\ w = bpow radix2 e.
Lemma prod64_pow2 k l x : prod64 l x -> Forall (pow2 k) l -> (k * length l <= 1022)%nat -> x = mul l /\ pow2 (k * length l) x.
Proof.
  induction 1 as [|a|l m x y H1 IH1 H2 IH2|l m x HP H IH]; intros HF HK.
  - split; [reflexivity|]. exists 0%Z. split; [lia|reflexivity].
  - inversion HF; subst. cbn [length]. rewrite Nat.mul_1_r. split; [unfold mul; cbn; ring|easy].
  - apply Forall_app in HF. destruct HF as [F1 F2]. rewrite app_length in *. destruct (IH1 F1 ltac:(lia)) as (E1 & e1 & B1 & P1). destruct (IH2 F2 ltac:(lia)) as (E2 & e2 & B2 & P2).
    assert (E : rnd64 (x * y) = x * y). { apply rnd_id. rewrite P1, P2, <- bpow_plus. apply fmt_bpow. lia. }
    rewrite E. split; [rewrite mul_app; congruence|]. exists (e1 + e2)%Z. split; [lia|]. now rewrite P1, P2, bpow_plus.
  - rewrite <- (Permutation_length HP), <- (mul_perm _ _ HP). apply IH; [|now rewrite (Permutation_length HP)]. eapply Permutation_Forall; [apply Permutation_sym; exact HP|exact HF].
Qed.
Lemma underflow : rnd64 (bpow radix2 (-600) * bpow radix2 (-600)) = 0.
Proof.
  rewrite <- bpow_plus. change (-600 + -600)%Z with (-1200)%Z. unfold rnd64. apply round_N_small_pos with (-1199)%Z.
  - split; [apply bpow_le; lia|apply bpow_lt; lia].
  - unfold FLT_exp. lia.
Qed.

(** ** The columns whose products are the weights *)
Lemma tp_weight_cols quads : exists ws, tensor_product_pts (map weight_points quads) = Ok ws
  /\ pts_cols ws = map (fun idx => pick 0 (map q_weights quads) idx) (enumF (map (fun q => length (q_weights q)) quads)).
Proof.
  destruct (tensor_product_pts_ok (map weight_points quads)) as (ws & E & _ & C1 & C0 & _).
  { apply Forall_map. apply Forall_forall. intros q _. apply wf_weight_points. }
  exists ws. split; [exact E|]. rewrite sum_weight_dims in *. destruct quads as [|q0 quads'].
  - rewrite (C0 eq_refl). cbn. unfold enumF, prod_nat, pick. cbn. reflexivity.
  - rewrite C1 by discriminate. set (quads := q0 :: quads') in *. rewrite tp_tuples_pick.
    assert (EL : map (@length (list R)) (map pts_cols (map weight_points quads)) = map (fun q => length (q_weights q)) quads).
    { rewrite !map_map. apply map_ext. intros q. cbn. apply map_length. }
    rewrite EL. apply map_ext_in. intros idx H. apply enumF_in in H.
    clear E C1 C0 EL. revert idx H. induction quads as [|q quads IH]; intros idx H; inversion H as [|i n r ns Hi Hr]; subst; [reflexivity|].
    unfold pick in *. cbn [map combine fst snd concat]. rewrite IH by easy.
    cbn [weight_points pts_cols]. rewrite (nth_indep _ [] ((fun w => [w]) 0)) by (now rewrite map_length).
    rewrite (map_nth (fun w => [w])). reflexivity.
Qed.
