(** * Exactness of the Gauss-Lobatto rule *)
From Coquelicot Require Import Coquelicot.
From Coq Require Import List Arith Bool ZArith Reals Lra Lia.
From Verif Require Import Py RSum ModelModes ModelQuad ModelGauss ProofGamma IntFacts.
From Verif Require Import ProofJacobi ProofJacobi2 ProofJacobiOrtho ProofPoly1 ProofGauss ProofGaussExist ProofGauss2 ProofGauss3 ProofLobatto.
Import ListNotations.
Local Open Scope R_scope.

Lemma D_poly n : poly1 n (D n).
Proof.
  apply (poly1_ext _ (fun x => / kap 1 1 n * jp 1 1 n x)).
  - intros x. rewrite jp11. assert (kap 1 1 n <> 0) by (apply Rgt_not_eq, kap_pos; lra). field. easy.
  - apply poly1_scal. apply (p_poly (jp 1 1) (A 1 1) (bcoef 1 1) (kap 1 1 0)); intros; first [apply A_pos; lra|apply kap0_ne; lra|apply jp0|apply jp_rec0; lra|apply jp_recS; lra].
Qed.
Lemma D_at1 n : D n 1 = 1. Proof. apply F_at1. Qed.
Lemma P_at1 n : P n 1 = 1. Proof. apply F_at1. Qed.
Lemma D_m1 n : D n (-1) = - P (S n) (-1).
Proof. pose proof (D_ode n (-1)). lra. Qed.
Lemma D_m1_ne n : D n (-1) <> 0.
Proof.
  intros E. pose proof (jp_endm 1 1 n ltac:(lra) ltac:(lra)) as H. rewrite jp11, E in H. lra.
Qed.
Lemma P_int0 n : is_RInt (P (S n)) (-1) 1 0.
Proof.
  pose proof (F_int0 0 0 n) as H. unfold IntN in H. eapply is_RInt_ext; [|exact H]. intros x _. req. unfold P, wnat. change (INR 0) with 0. rewrite Rplus_0_r. cbn [pow]. ring.
Qed.
Lemma D_cont n x : continuous (D n) x.
Proof. exact (poly1_cont n (D n) x (D_poly n)). Qed.
Lemma gplus_int n : is_RInt (fun x => (1 + x) * D n x) (-1) 1 (4 / ((INR n + 1) * (INR n + 2))).
Proof.
  pose proof (pos_INR n) as Hn. set (c := (INR n + 1) * (INR n + 2) / 2). assert (Hc : c <> 0) by (unfold c; nra).
  assert (H : is_RInt (fun x => P (S n) x + (1 + x) * (c * D n x)) (-1) 1 ((1 + 1) * P (S n) 1 - (1 + -1) * P (S n) (-1))).
  { apply (is_RInt_derive (fun x => (1 + x) * P (S n) x) (fun x => P (S n) x + (1 + x) * (c * D n x))).
    - intros x _. replace (P (S n) x + (1 + x) * (c * D n x)) with (1 * P (S n) x + (1 + x) * (c * D n x)) by ring.
      apply (is_derive_mult (fun t => 1 + t) (P (S n))); [auto_derive; [easy|ring]|apply P_deriv|intros; apply Rmult_comm].
    - intros x _. apply (continuous_plus (P (S n))).
      + apply (ex_derive_continuous (P (S n))). eexists. apply P_deriv.
      + apply (continuous_mult (fun t => 1 + t)); [|apply (continuous_scal_r c (D n)), D_cont].
        apply (ex_derive_continuous (fun t => 1 + t)). auto_derive. easy. }
  pose proof (is_RInt_scal _ _ _ (/ c) _ (is_RInt_minus _ _ _ _ _ _ H (P_int0 n))) as K.
  replace (4 / ((INR n + 1) * (INR n + 2))) with (/ c * ((1 + 1) * P (S n) 1 - (1 + -1) * P (S n) (-1) - 0)).
  { eapply is_RInt_ext; [|exact K]. intros x _. change (/ c * (P (S n) x + (1 + x) * (c * D n x) - P (S n) x) = (1 + x) * D n x). field. easy. }
  rewrite P_at1. unfold c. field. lra.
Qed.
Lemma gminus_int n : is_RInt (fun x => (1 - x) * D n x) (-1) 1 (4 / ((INR n + 1) * (INR n + 2)) * D n (-1)).
Proof.
  pose proof (pos_INR n) as Hn. set (c := (INR n + 1) * (INR n + 2) / 2). assert (Hc : c <> 0) by (unfold c; nra).
  assert (H : is_RInt (fun x => - P (S n) x + (1 - x) * (c * D n x)) (-1) 1 ((1 - 1) * P (S n) 1 - (1 - -1) * P (S n) (-1))).
  { apply (is_RInt_derive (fun x => (1 - x) * P (S n) x) (fun x => - P (S n) x + (1 - x) * (c * D n x))).
    - intros x _. replace (- P (S n) x + (1 - x) * (c * D n x)) with ((-1) * P (S n) x + (1 - x) * (c * D n x)) by ring.
      apply (is_derive_mult (fun t => 1 - t) (P (S n))); [auto_derive; [easy|ring]|apply P_deriv|intros; apply Rmult_comm].
    - intros x _. apply (continuous_plus (fun x => - P (S n) x)).
      + apply (continuous_opp (P (S n))). apply (ex_derive_continuous (P (S n))). eexists. apply P_deriv.
      + apply (continuous_mult (fun t => 1 - t)); [|apply (continuous_scal_r c (D n)), D_cont].
        apply (ex_derive_continuous (fun t => 1 - t)). auto_derive. easy. }
  pose proof (is_RInt_scal _ _ _ (/ c) _ (is_RInt_plus _ _ _ _ _ _ H (P_int0 n))) as K.
  replace (4 / ((INR n + 1) * (INR n + 2)) * D n (-1)) with (/ c * ((1 - 1) * P (S n) 1 - (1 - -1) * P (S n) (-1) + 0)).
  { eapply is_RInt_ext; [|exact K]. intros x _. change (/ c * (- P (S n) x + (1 - x) * (c * D n x) + P (S n) x) = (1 - x) * D n x). field. easy. }
  rewrite D_m1. unfold c. field. lra.
Qed.

(** The rule with n = N - 1 >= 1: edge weights e, interior nodes and weights *)
Definition lrule (n m : nat) (lam w : nat -> R) (f : R -> R) : R :=
  2 / ((INR n + 1) * (INR n + 2)) * f (-1) + rsum (fun i => w i * f (lam i)) m + 2 / ((INR n + 1) * (INR n + 2)) * f 1.
Lemma lrule_ext n m lam w f g : (forall x, f x = g x) -> lrule n m lam w f = lrule n m lam w g.
Proof. intros E. unfold lrule. rewrite !E. f_equal. f_equal. apply rsum_ext. intros i _. now rewrite E. Qed.
Lemma lrule_plus n m lam w f g : lrule n m lam w (fun x => f x + g x) = lrule n m lam w f + lrule n m lam w g.
Proof.
  unfold lrule. rewrite (rsum_ext _ (fun i => w i * f (lam i) + w i * g (lam i))) by (intros; ring). rewrite rsum_plus. ring.
Qed.
Lemma lrule_scal n m lam w c f : lrule n m lam w (fun x => c * f x) = c * lrule n m lam w f.
Proof.
  unfold lrule. rewrite (rsum_ext _ (fun i => c * (w i * f (lam i)))) by (intros; ring). rewrite rsum_scal. ring.
Qed.
Lemma split_ends n q : exists a b, forall x, x = 1 \/ x = -1 -> q x - a * ((1 + x) * D n x) - b * ((1 - x) * D n x) = 0.
Proof.
  pose proof (D_m1_ne n) as H. exists (q 1 / 2), (q (-1) / (2 * D n (-1))). intros x [-> | ->].
  - rewrite D_at1. field. easy.
  - field. easy.
Qed.
Lemma lobatto_abstract n m lam w (r : R -> R) q : poly1 (2 * n + 1) q ->
  (forall i, (i < m)%nat -> D n (lam i) = 0) ->
  (forall s, (1 <= n)%nat -> poly1 (2 * n - 1) s -> is_RInt (fun x => (1 - x) * (1 + x) * s x) (-1) 1 (rsum (fun i => w i * ((1 - lam i) * (1 + lam i) * s (lam i))) m)) ->
  is_RInt q (-1) 1 (lrule n m lam w q).
Proof.
  intros Hq HD HS. destruct (split_ends n q) as (a & b & Hr). set (rem := fun x => q x - a * ((1 + x) * D n x) - b * ((1 - x) * D n x)).
  assert (Gp : poly1 (2 * n + 1) (fun x => (1 + x) * D n x)).
  { apply (poly1_weaken (1 + n)); [lia|]. apply (poly1_mult 1 n (fun x => 1 + x)); [|apply D_poly]. apply poly1_plus; [exact (poly1_const 1 1)|exact poly1_x]. }
  assert (Gm : poly1 (2 * n + 1) (fun x => (1 - x) * D n x)).
  { apply (poly1_weaken (1 + n)); [lia|]. apply (poly1_mult 1 n (fun x => 1 - x)); [|apply D_poly]. apply poly1_minus; [exact (poly1_const 1 1)|exact poly1_x]. }
  assert (Hrem : poly1 (2 * n + 1) rem).
  { unfold rem. apply (poly1_minus _ (fun x => q x - a * ((1 + x) * D n x))); [apply poly1_minus; [easy|]|]; now apply poly1_scal. }
  assert (R1 : is_RInt rem (-1) 1 (lrule n m lam w rem)).
  { replace (2 * n + 1)%nat with (S (2 * n)) in Hrem by lia. destruct (poly1_root _ _ 1 Hrem (Hr 1 (or_introl eq_refl))) as (g & Hg & E1).
    assert (g0 : g (-1) = 0) by (pose proof (Hr (-1) (or_intror eq_refl)) as H; fold (rem (-1)) in H; rewrite E1 in H; lra).
    destruct n as [|n].
    - assert (Z : forall x, rem x = 0). { intros x. rewrite E1, (poly1_const0 g Hg x), <- (poly1_const0 g Hg (-1)), g0. ring. }
      eapply is_RInt_ext; [intros x _; symmetry; apply Z|]. rewrite (lrule_ext _ _ _ _ _ (fun _ => 0 * 0)) by (intros; rewrite Z; ring).
      rewrite (lrule_scal _ _ _ _ 0 (fun _ => 0)), Rmult_0_l. pose proof (is_RInt_const (-1) 1 (0:R)) as K. change (Hierarchy.scal (1 - -1) 0) with ((1 - -1) * 0) in K. rewrite Rmult_0_r in K. exact K.
    - replace (2 * S n)%nat with (S (2 * n + 1)) in Hg by lia. destruct (poly1_root _ _ (-1) Hg g0) as (h & Hh & E2).
      pose proof (HS (fun x => - (1) * h x) ltac:(lia) ltac:(apply poly1_scal; now replace (2 * S n - 1)%nat with (2 * n + 1)%nat by lia)) as K.
      assert (Ex : forall x, rem x = (1 - x) * (1 + x) * (- (1) * h x)) by (intros x; rewrite E1, E2; ring).
      eapply is_RInt_ext; [intros x _; symmetry; apply Ex|].
      replace (lrule (S n) m lam w rem) with (rsum (fun i => w i * ((1 - lam i) * (1 + lam i) * (- (1) * h (lam i)))) m); [exact K|].
      unfold lrule. rewrite (Ex 1), (Ex (-1)). replace (rsum (fun i => w i * rem (lam i)) m) with (rsum (fun i => w i * ((1 - lam i) * (1 + lam i) * (- (1) * h (lam i)))) m); [ring|].
      apply rsum_ext. intros i _. now rewrite Ex. }
  assert (R2 : is_RInt (fun x => (1 + x) * D n x) (-1) 1 (lrule n m lam w (fun x => (1 + x) * D n x))).
  { replace (lrule n m lam w (fun x => (1 + x) * D n x)) with (4 / ((INR n + 1) * (INR n + 2))); [apply gplus_int|].
    unfold lrule. rewrite D_at1. rewrite (rsum_0 (fun i => w i * ((1 + lam i) * D n (lam i)))) by (intros i Hi; rewrite HD by easy; ring).
    pose proof (pos_INR n). field. lra. }
  assert (R3 : is_RInt (fun x => (1 - x) * D n x) (-1) 1 (lrule n m lam w (fun x => (1 - x) * D n x))).
  { replace (lrule n m lam w (fun x => (1 - x) * D n x)) with (4 / ((INR n + 1) * (INR n + 2)) * D n (-1)); [apply gminus_int|].
    unfold lrule. rewrite (rsum_0 (fun i => w i * ((1 - lam i) * D n (lam i)))) by (intros i Hi; rewrite HD by easy; ring).
    pose proof (pos_INR n). field. lra. }
  assert (Eq : forall x, q x = rem x + (a * ((1 + x) * D n x) + b * ((1 - x) * D n x))) by (intros x; unfold rem; ring).
  eapply is_RInt_ext; [intros x _; symmetry; apply Eq|].
  rewrite (lrule_ext _ _ _ _ _ _ Eq), lrule_plus, (lrule_plus _ _ _ _ (fun x => a * ((1 + x) * D n x))), !lrule_scal.
  apply (is_RInt_plus rem); [exact R1|]. apply (is_RInt_plus (fun x => a * ((1 + x) * D n x))); [apply (is_RInt_scal (fun x => (1 + x) * D n x)), R2|apply (is_RInt_scal (fun x => (1 - x) * D n x)), R3].
Qed.
