(** * The Gauss rule inside the Kronrod rule *)
From Coquelicot Require Import Coquelicot.
From Coq Require Import List Arith Bool Reals Lra Lia Permutation Sorted Classical_Prop.
From Verif Require Import Py RSum ModelNd ModelShapes ModelNodes ModelModes ModelQuad ModelGauss ModelKronrod.
From Verif Require Import ProofLinAlg ProofJacobi ProofJacobi2 ProofJacobiOrtho ProofPoly1 ProofMonomial ProofGauss ProofGaussExist ProofGauss2 ProofGauss3 ProofKronrod ProofEig ProofGK ProofGK2 PropsInf ProofLaurie.
Import ListNotations.
Local Open Scope R_scope.

(** ** Characteristic polynomials split at a row *)
Definition dsub (b : nat -> R) (a j : nat) (z : R) : R := match j with O => 0 | S i => dpol (fun k => b (a + k)%nat) i z end.
Lemma dpol_split b a z : forall j, dpol b (S a + j) z = dpol b (S a) z * dpol (fun k => b (S a + k)%nat) j z - b a ^ 2 * dpol b a z * dsub b (S (S a)) j z.
Proof.
  assert (P : forall j, dpol b (S a + j) z = dpol b (S a) z * dpol (fun k => b (S a + k)%nat) j z - b a ^ 2 * dpol b a z * dsub b (S (S a)) j z
     /\ dpol b (S a + S j) z = dpol b (S a) z * dpol (fun k => b (S a + k)%nat) (S j) z - b a ^ 2 * dpol b a z * dsub b (S (S a)) (S j) z); [|intros j; apply P].
  induction j as [|j [I1 I2]].
  - split; [rewrite Nat.add_0_r, dpol_0; cbn [dsub]; ring|]. replace (S a + 1)%nat with (S (S a)) by lia. rewrite dpol_1, (dpol_SS b a). cbn [dsub]. rewrite dpol_0. ring.
  - split; [exact I2|]. replace (S a + S (S j))%nat with (S (S (S a + j))) by lia. rewrite dpol_SS. replace (S (S a + j)) with (S a + S j)%nat by lia. rewrite I1, I2, (dpol_SS _ j).
    assert (E : dsub b (S (S a)) (S (S j)) z = z * dsub b (S (S a)) (S j) z - b (S a + j)%nat ^ 2 * dsub b (S (S a)) j z).
    { destruct j as [|j]; cbn [dsub]; [rewrite dpol_1, dpol_0; ring|]. rewrite dpol_SS. replace (S (S a) + j)%nat with (S a + S j)%nat by lia. ring. }
    rewrite E. ring.
Qed.
Lemma mon_dpol bt b sh x : forall l, (forall k, (S k < l)%nat -> b k ^ 2 = bt (sh + S k)%nat) -> mon bt sh l x = dpol b l x.
Proof.
  assert (P : forall l, (forall k, (k < l)%nat -> b k ^ 2 = bt (sh + S k)%nat) -> mon bt sh l x = dpol b l x /\ mon bt sh (S l) x = dpol b (S l) x).
  { induction l as [|l IH]; intros H.
    - rewrite mon_S, dpol_0, dpol_1. change (mon bt sh 0 x) with 1. change (monp bt sh 0 x) with 0. split; ring.
    - destruct IH as [I1 I2]; [intros; apply H; lia|]. split; [easy|]. rewrite mon_S, monp_S, I1, I2, dpol_SS, H by lia. reflexivity. }
  intros l H. destruct l as [|l]; [reflexivity|]. apply P. intros; apply H; lia.
Qed.
Section Embed.
  Context (n : nat).
  Hypothesis Hn : (1 <= n)%nat.
  Hypothesis HP : forall k, (k < 2 * n)%nat -> 0 < kronrod_b n k.
  Lemma laurie_all_pos i : (1 <= i <= 2 * n)%nat -> 0 < laurie n i.
  Proof.
    intros Hi. specialize (HP (i - 1)%nat ltac:(lia)). rewrite kronrod_b_spec in HP by lia. replace (i - 1 + 1)%nat with i in HP by lia.
    destruct (Rle_lt_dec (laurie n i) 0) as [L|L]; [|easy]. rewrite sqrt_neg_0 in HP by easy. lra.
  Qed.
  Lemma kronrod_b_sq k : (k < 2 * n)%nat -> kronrod_b n k ^ 2 = laurie_bt n (S k).
  Proof.
    intros Hk. rewrite kronrod_b_spec by easy. rewrite laurie_bt_low by lia. cbn [pow]. rewrite Rmult_1_r. replace (k + 1)%nat with (S k) by lia. apply sqrt_sqrt. apply Rlt_le, laurie_all_pos. lia.
  Qed.
  Lemma trailing_dpol z : dpol (kronrod_b n) n z = dpol (fun k => kronrod_b n (S n + k)%nat) n z.
  Proof.
    rewrite <- (mon_dpol (laurie_bt n) (kronrod_b n) 0 z n) by (intros; apply kronrod_b_sq; lia).
    rewrite <- (mon_dpol (laurie_bt n) (fun k => kronrod_b n (S n + k)%nat) (n + 1) z n).
    2:{ intros k Hk. rewrite kronrod_b_sq by lia. f_equal. lia. }
    apply expand_top.
    - intros k. unfold laurie_bt. destruct (Nat.leb_spec (n + 1 + k) (2 * n)); [|lra]. apply Rgt_not_eq, laurie_all_pos. lia.
    - apply laurie_trailing; [easy|]. intros i Hi. apply Rgt_not_eq, laurie_all_pos. lia.
  Qed.
  Lemma kron_factor z : dpol (kronrod_b n) (S (2 * n)) z = dpol (kronrod_b n) n z * (dpol (kronrod_b n) (S n) z - kronrod_b n n ^ 2 * dsub (kronrod_b n) (S (S n)) n z).
  Proof. replace (S (2 * n)) with (S n + n)%nat by lia. rewrite dpol_split, <- trailing_dpol. ring. Qed.
  Lemma leg_dpol z : dpol (kronrod_b n) n z = dpol legendre_b n z.
  Proof. apply dpol_ext. intros k Hk. apply kronrod_b_legendre; [easy|]. pose proof (KK_bounds n). lia. Qed.
End Embed.

(** ** The Gauss rule itself *)
Lemma gauss_sum_exact N lam V f : eigdec (S N) (tri legendre_b (fun _ => 0)) lam V -> poly1 (2 * N + 1) f ->
  Int1 f (rsum (fun i => 2 * eigvec1 legendre_b (lam i) (S N) 0 ^ 2 * f (lam i)) (S N)).
Proof.
  intros D (c & Hc). pose proof (fun k (_ : (k < N)%nat) => legendre_b_pos k) as Hb.
  set (p := fun n x => c0 * vp legendre_b n x). set (z0 := fun _ : nat => 0).
  assert (P0 : forall x, p 0%nat x = c0) by (intros; unfold p; rewrite vp_0; ring).
  assert (P1 : forall x, x * p 0%nat x = legendre_b 0 * p 1%nat x + z0 0%nat * p 0%nat x).
  { intros x. unfold p, z0. rewrite vp_0, vp_1. field. apply Rgt_not_eq, legendre_b_pos. }
  assert (P2 : forall n x, x * p (S n) x = legendre_b (S n) * p (S (S n)) x + z0 (S n) * p (S n) x + legendre_b n * p n x).
  { intros m x. unfold p, z0. rewrite vp_SS. field. apply Rgt_not_eq, legendre_b_pos. }
  pose proof (gauss_poly p legendre_b z0 c0 legendre_b_pos c0_ne P0 P1 P2 N lam V D Int1 Int1_ext Int1_plus Int1_scal leg_ortho c (S (2 * N + 1)) (le_n _)) as G.
  unfold Int1 in *. evar_last; [eapply is_RInt_ext; [|exact G]|].
  - intros x _. cbv beta. symmetry. apply Hc.
  - unfold grule. apply rsum_ext. intros i Hi. rewrite (lam_weight legendre_b N Hb lam V D i Hi), Hc. ring.
Qed.
Lemma gauss_inside N lam V : eigdec (S N) (tri legendre_b (fun _ => 0)) lam V -> forall i, (i < S N)%nat -> -1 < lam i < 1.
Proof.
  intros D i Hi. set (p := fun n x => c0 * vp legendre_b n x). set (z0 := fun _ : nat => 0).
  assert (P0 : forall x, p 0%nat x = c0) by (intros; unfold p; rewrite vp_0; ring).
  assert (P1 : forall x, x * p 0%nat x = legendre_b 0 * p 1%nat x + z0 0%nat * p 0%nat x).
  { intros x. unfold p, z0. rewrite vp_0, vp_1. field. apply Rgt_not_eq, legendre_b_pos. }
  assert (P2 : forall n x, x * p (S n) x = legendre_b (S n) * p (S (S n)) x + z0 (S n) * p (S n) x + legendre_b n * p n x).
  { intros m x. unfold p, z0. rewrite vp_SS. field. apply Rgt_not_eq, legendre_b_pos. }
  refine (nodes_inside p legendre_b z0 c0 legendre_b_pos c0_ne P0 P1 P2 _ _ N lam V D i Hi).
  - intros m. unfold p. rewrite <- jp_vp. apply jp_end; lra.
  - intros m. unfold p. rewrite <- jp_vp. apply jp_endm; lra.
Qed.

(** ** Interlacing *)
Section Interlace.
  Context (n : nat) (lam : nat -> R) (V : nat -> nat -> R) (theta : nat -> R) (U : nat -> nat -> R).
  Hypothesis Hn : (1 <= n)%nat.
  Hypothesis HP : forall k, (k < 2 * n)%nat -> 0 < kronrod_b n k.
  Hypothesis HE : eigdec (S (2 * n)) (tri (kronrod_b n) (fun _ => 0)) lam V.
  Hypothesis HS : forall i j, (i < j < S (2 * n))%nat -> lam i < lam j.
  Hypothesis GE : eigdec n (tri legendre_b (fun _ => 0)) theta U.
  Hypothesis GS : forall i j, (i < j < n)%nat -> theta i < theta j.
  Lemma GE' : eigdec (S (n - 1)) (tri legendre_b (fun _ => 0)) theta U.
  Proof. now replace (S (n - 1)) with n by lia. Qed.
  Lemma theta_is_lam i : (i < n)%nat -> exists k, (k < S (2 * n))%nat /\ lam k = theta i.
  Proof.
    intros Hi. apply (root_is_lam (kronrod_b n) (2 * n) HP lam V HE). rewrite (kron_factor n Hn HP), (leg_dpol n Hn).
    pose proof (lam_root legendre_b (n - 1) (fun k _ => legendre_b_pos k) theta U GE' i ltac:(lia)) as R0. replace (S (n - 1)) with n in R0 by lia. rewrite R0. ring.
  Qed.
  (** A polynomial that vanishes at the Gauss nodes and is nowhere negative at the
      Kronrod nodes vanishes at these as well *)
  Lemma no_sign F d : (d <= 2 * n - 1)%nat -> poly1 d F -> (forall i, (i < n)%nat -> F (theta i) = 0) -> (forall k, (k < S (2 * n))%nat -> 0 <= F (lam k)) ->
    forall k, (k < S (2 * n))%nat -> F (lam k) = 0.
  Proof.
    intros Hd Hp F0 FP k Hk. pose proof (KK_bounds n) as KB.
    pose proof (full_rule_poly n lam V Hn HP HE HS F d ltac:(lia) Hp) as I1.
    pose proof (gauss_sum_exact (n - 1) theta U F GE' ltac:(apply (poly1_weaken d); [lia|easy])) as I2.
    replace (S (n - 1)) with n in I2 by lia. rewrite rsum_0 in I2 by (intros i Hi; rewrite F0 by easy; ring).
    assert (Z : full_rule n lam F = 0) by (rewrite <- (is_RInt_unique _ _ _ _ I1); exact (is_RInt_unique _ _ _ _ I2)). clear I1 I2.
    destruct (FP k Hk) as [L|E]; [exfalso|easy]. unfold full_rule in Z.
    assert (WP : forall i, 0 < 2 * eigvec1 (kronrod_b n) (lam i) (S (2 * n)) 0 ^ 2) by (intros; apply Rmult_lt_0_compat; [lra|apply eigvec1_pos]).
    assert (Q : forall g m, (k < m)%nat -> (forall i, (i < m)%nat -> 0 <= g i) -> 0 < g k -> 0 < rsum g m).
    { clear. intros g. induction m as [|m IH]; intros Hk Hg Hp; [lia|]. rewrite rsum_S. destruct (Nat.eq_dec k m) as [->|].
      - pose proof (rsum_nonneg g m ltac:(intros; apply Hg; lia)). lra.
      - pose proof (IH ltac:(lia) ltac:(intros; apply Hg; lia) Hp). pose proof (Hg m ltac:(lia)). lra. }
    pose proof (Q (fun i => 2 * eigvec1 (kronrod_b n) (lam i) (S (2 * n)) 0 ^ 2 * F (lam i)) (S (2 * n)) Hk) as Q2. cbv beta in Q2.
    assert (0 < rsum (fun i => 2 * eigvec1 (kronrod_b n) (lam i) (S (2 * n)) 0 ^ 2 * F (lam i)) (S (2 * n))); [|lra]. apply Q2.
    - intros i Hi. apply Rmult_le_pos; [apply Rlt_le, WP|now apply FP].
    - apply Rmult_lt_0_compat; [apply WP|easy].
  Qed.
  Definition psq (l : list nat) (x : R) : R := fold_right (fun g r => (x - theta g) ^ 2 * r) 1 l.
  Lemma psq_poly l : poly1 (2 * length l) (psq l).
  Proof.
    induction l as [|g l IH]; cbn [length]; [apply poly1_const|]. apply (poly1_ext _ (fun x => ((x - theta g) * (x - theta g)) * psq l x)); [intros; cbn [psq fold_right]; fold (psq l x); ring|].
    replace (2 * S (length l))%nat with ((1 + 1) + 2 * length l)%nat by lia.
    assert (L : poly1 1 (fun x => x - theta g)) by (apply poly1_minus; [apply poly1_x|apply poly1_const]).
    apply poly1_mult; [|easy]. now apply poly1_mult.
  Qed.
  Lemma psq_nonneg l x : 0 <= psq l x.
  Proof. induction l as [|g l IH]; cbn [psq fold_right]; [lra|]. apply Rmult_le_pos; [apply pow2_ge_0|easy]. Qed.
  Lemma psq_zero l g : In g l -> psq l (theta g) = 0.
  Proof.
    induction l as [|h l IH]; intros H; [easy|]. cbn [psq fold_right]. destruct H as [->|H]; [ring|]. fold (psq l (theta g)). rewrite IH by easy. ring.
  Qed.
  Lemma psq_root l x : psq l x = 0 -> exists g, In g l /\ x = theta g.
  Proof.
    induction l as [|h l IH]; cbn [psq fold_right]; intros H; [lra|]. apply Rmult_integral in H. destruct H as [H|H].
    - exists h. split; [now left|]. cbn [pow] in H. nra.
    - destruct (IH H) as (g & G1 & G2). exists g. split; [now right|easy].
  Qed.
  (** Not all Kronrod nodes are Gauss nodes *)
  Lemma other_node : exists k, (k < S (2 * n))%nat /\ forall i, (i < n)%nat -> lam k <> theta i.
  Proof.
    destruct (Classical_Prop.classic (exists k, (k < S (2 * n))%nat /\ forall i, (i < n)%nat -> lam k <> theta i)) as [H|H]; [easy|exfalso].
    assert (C : forall k, (k < S (2 * n))%nat -> exists i, (i < n)%nat /\ lam k = theta i).
    { intros k Hk. destruct (Classical_Prop.classic (exists i, (i < n)%nat /\ lam k = theta i)) as [G|G]; [easy|]. exfalso. apply H. exists k. split; [easy|]. intros i Hi E. apply G. now exists i. }
    destruct (finite_choice_nat _ _ C) as (f & Hf).
    assert (L : (length (seq 0 (S (2 * n))) <= length (seq 0 n))%nat).
    { rewrite <- (map_length f (seq 0 (S (2 * n)))). apply NoDup_incl_length.
      - assert (Q : forall l, NoDup l -> (forall k, In k l -> (k < S (2 * n))%nat) -> NoDup (map f l)).
        { induction 1 as [|a l NI ND IH]; intros HL; cbn [map]; constructor; [|apply IH; intros; apply HL; now right].
          intros HI. apply in_map_iff in HI. destruct HI as (a' & E & HI). destruct (Hf a (HL a (or_introl eq_refl))) as [_ F1]. destruct (Hf a' (HL a' (or_intror HI))) as [_ F2].
          assert (E2 : lam a = lam a') by (rewrite F1, F2; now rewrite E).
          apply (lam_distinct (kronrod_b n) (2 * n) HP lam V HE) in E2; [|apply HL; now left|apply HL; now right]. subst. easy. }
        apply Q; [apply seq_NoDup|]. intros k Hk. apply in_seq in Hk. lia.
      - intros i Hi. apply in_map_iff in Hi. destruct Hi as (k & <- & Hk). apply in_seq in Hk. apply in_seq. destruct (Hf k ltac:(lia)). lia. }
    rewrite !seq_length in L. lia.
  Qed.
  Lemma first_not_gauss : lam 0%nat <> theta 0%nat.
  Proof.
    intros E. destruct other_node as (k & Hk & NK).
    assert (Z : (lam k - theta 0%nat) * psq (seq 1 (n - 1)) (lam k) = 0).
    { apply (no_sign (fun x => (x - theta 0%nat) * psq (seq 1 (n - 1)) x) (1 + 2 * (n - 1))); [lia| | | |easy].
      - apply poly1_mult; [apply poly1_minus; [apply poly1_x|apply poly1_const]|]. rewrite <- (seq_length (n - 1) 1) at 1. apply psq_poly.
      - intros i Hi. destruct i as [|i]; [ring|]. rewrite psq_zero; [ring|]. apply in_seq. lia.
      - intros j Hj. apply Rmult_le_pos; [|apply psq_nonneg]. rewrite <- E. destruct j as [|j]; [lra|]. pose proof (HS 0%nat (S j) ltac:(lia)). lra. }
    apply Rmult_integral in Z. destruct Z as [Z|Z].
    - apply (NK 0%nat ltac:(lia)). lra.
    - apply psq_root in Z. destruct Z as (g & G1 & G2). apply in_seq in G1. apply (NK g ltac:(lia)). easy.
  Qed.
  Lemma not_adjacent i k : (S i < n)%nat -> (S k < S (2 * n))%nat -> lam k = theta i -> lam (S k) = theta (S i) -> False.
  Proof.
    intros Hi Hk0 E1 E2. destruct other_node as (k' & Hk & NK). set (l := seq 0 i ++ seq (S (S i)) (n - i - 2)).
    assert (Z : (lam k' - theta i) * (lam k' - theta (S i)) * psq l (lam k') = 0).
    { apply (no_sign (fun x => (x - theta i) * (x - theta (S i)) * psq l x) (1 + 1 + 2 * length l)); [| | | |easy].
      - unfold l. rewrite app_length, !seq_length. lia.
      - apply poly1_mult; [|apply psq_poly]. apply poly1_mult; (apply poly1_minus; [apply poly1_x|apply poly1_const]).
      - intros j Hj. destruct (Nat.eq_dec j i) as [->|]; [ring|]. destruct (Nat.eq_dec j (S i)) as [->|]; [ring|]. rewrite psq_zero; [ring|]. apply in_or_app. rewrite !in_seq. lia.
      - intros j Hj. apply Rmult_le_pos; [|apply psq_nonneg]. rewrite <- E1, <- E2. destruct (lt_eq_lt_dec j k) as [[L|L]|L].
        + pose proof (HS j k ltac:(lia)). pose proof (HS k (S k) ltac:(lia)). nra.
        + subst j. lra.
        + destruct (Nat.eq_dec j (S k)) as [->|]; [lra|]. pose proof (HS (S k) j ltac:(lia)). pose proof (HS k (S k) ltac:(lia)). nra. }
    apply Rmult_integral in Z. destruct Z as [Z|Z]; [apply Rmult_integral in Z; destruct Z as [Z|Z]|].
    - apply (NK i ltac:(lia)). lra.
    - apply (NK (S i) ltac:(lia)). lra.
    - apply psq_root in Z. destruct Z as (g & G1 & G2). unfold l in G1. apply in_app_or in G1. rewrite !in_seq in G1. apply (NK g ltac:(lia)). easy.
  Qed.
  Lemma theta_sym i : (i < n)%nat -> theta (n - 1 - i)%nat = - theta i.
  Proof. intros Hi. apply (lam_sym legendre_b (n - 1) theta U (fun k _ => legendre_b_pos k) GE'); [intros; apply GS; lia|lia]. Qed.
  Lemma interlace i : (i < n)%nat -> lam (2 * i + 1)%nat = theta i.
  Proof.
    destruct (finite_choice_nat _ _ theta_is_lam) as (f & Hf).
    assert (MON : forall i j, (i < j < n)%nat -> (f i < f j)%nat).
    { intros a c H. destruct (Hf a ltac:(lia)) as [A1 A2], (Hf c ltac:(lia)) as [C1 C2]. destruct (lt_eq_lt_dec (f a) (f c)) as [[L|L]|L]; [easy| |].
      - rewrite L in A2. pose proof (GS a c ltac:(lia)). lra.
      - pose proof (HS (f c) (f a) ltac:(lia)). pose proof (GS a c ltac:(lia)). lra. }
    assert (LOW : forall i, (i < n)%nat -> (2 * i + 1 <= f i)%nat).
    { induction i0 as [|j IH]; intros Hj.
      - destruct (Hf 0%nat Hj) as [F1 F2]. destruct (f 0%nat) as [|]; [|lia]. now elim first_not_gauss.
      - specialize (IH ltac:(lia)). pose proof (MON j (S j) ltac:(lia)). destruct (Hf j ltac:(lia)) as [F1 F2], (Hf (S j) ltac:(lia)) as [F3 F4].
        destruct (Nat.eq_dec (f (S j)) (S (f j))) as [E|]; [|lia]. exfalso. rewrite E in F3, F4. exact (not_adjacent j (f j) ltac:(lia) ltac:(lia) F2 F4). }
    intros Hi. destruct (Hf i Hi) as [F1 F2], (Hf (n - 1 - i)%nat ltac:(lia)) as [F3 F4].
    assert (E : f (n - 1 - i)%nat = (2 * n - f i)%nat).
    { apply (lam_distinct (kronrod_b n) (2 * n) HP lam V HE); [lia|lia|]. rewrite F4, (theta_sym i Hi), <- F2. symmetry. apply (lam_sym (kronrod_b n) (2 * n) lam V HP HE HS). lia. }
    pose proof (LOW i Hi). pose proof (LOW (n - 1 - i)%nat ltac:(lia)). replace (2 * i + 1)%nat with (f i) by lia. easy.
  Qed.
End Interlace.
