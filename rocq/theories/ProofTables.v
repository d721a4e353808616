(** * Rules from tables: from a fixed-point check to a bound on the error of the rule *)
From Coquelicot Require Import Coquelicot.
From Coq Require Import List Arith Bool ZArith Reals Lra Lia Uint63 Factorial.
From Verif Require Import Py ModelShapes ModelQuad ModelTables.
From Verif Require Import RSum EnumFacts SpecIndex SpecGeometry SpecPoly SpecIntegral ProofDirichlet ProofQuad PropsQuad ProofFixed ProofFixed2.
Import ListNotations.
Local Open Scope R_scope.

(** ** Error bounds from moments *)
Definition half (x : list R) : list R := map (fun t => (t + 1) / 2) x.
Definition coef_sum (ts : list (R * list nat)) : R := fold_right (fun t s => Rabs (fst t) + s) 0 ts.
(** The rule is exact up to [eps] times the sum of the moduli of the coefficients, for
    polynomials of degree at most [n] written in the coordinates (x + 1) / 2. *)
Definition integrates_within (q : quad) (s : shape) (n : nat) (eps : R) : Prop :=
  forall ts, Forall (fun t : R * list nat => length (snd t) = shape_dim s /\ (total (snd t) <= n)%nat) ts ->
  exists v r, is_int s (fun x => polyval ts (half x)) v /\ q_call q (fun x => Ok (polyval ts (half x))) = Ok r
    /\ Rabs (r - v) <= eps * coef_sum ts.

Lemma rule_plus q f g : rule q (fun x => f x + g x) = rule q f + rule q g.
Proof.
  unfold rule, dotR. generalize (q_weights q). induction (q_nodes q) as [|x l IH]; intros [|w ws]; cbn [map combine fold_right fst snd]; try ring.
  rewrite IH. ring.
Qed.
Lemma rule_scal q c f : rule q (fun x => c * f x) = c * rule q f.
Proof.
  unfold rule, dotR. generalize (q_weights q). induction (q_nodes q) as [|x l IH]; intros [|w ws]; cbn [map combine fold_right fst snd]; try ring.
  rewrite IH. ring.
Qed.
Lemma rule_zero q : rule q (fun _ => 0) = 0.
Proof.
  unfold rule, dotR. generalize (q_weights q). induction (q_nodes q) as [|x l IH]; intros [|w ws]; cbn [map combine fold_right fst snd]; try ring.
  rewrite IH. ring.
Qed.
Lemma within_of_moments q s n eps M : wf_quad q ->
  (forall e, length e = shape_dim s -> is_int s (fun x => monoval e (half x)) (M e)) ->
  (forall e, length e = shape_dim s -> (total e <= n)%nat -> Rabs (rule q (fun x => monoval e (half x)) - M e) <= eps) ->
  integrates_within q s n eps.
Proof.
  intros W HM HR ts Hts.
  assert (G : exists v, is_int s (fun x => polyval ts (half x)) v /\ Rabs (rule q (fun x => polyval ts (half x)) - v) <= eps * coef_sum ts).
  { induction Hts as [|[c e] ts (L & T) Hts (v & I & J)].
    - exists 0. split.
      + pose proof (HM (repeat 0%nat (shape_dim s)) (repeat_length _ _)) as I0. unfold polyval. cbn [fold_right].
        pose proof (is_int_scal s 0 _ _ I0) as I1. rewrite Rmult_0_l in I1.
        eapply is_int_ext; [|exact I1]. intros x _. cbv beta. ring.
      + unfold polyval, coef_sum. cbn [fold_right]. rewrite rule_zero, Rminus_0_r, Rabs_R0. lra.
    - cbn [fst snd] in L, T. exists (c * M e + v). split.
      + apply is_int_plus; [|exact I]. apply is_int_scal. now apply HM.
      + replace (rule q (fun x => polyval ((c, e) :: ts) (half x))) with (c * rule q (fun x => monoval e (half x)) + rule q (fun x => polyval ts (half x))).
        2:{ rewrite <- rule_scal, <- rule_plus. reflexivity. }
        change (coef_sum ((c, e) :: ts)) with (Rabs c + coef_sum ts). pose proof (HR e L T) as H1.
        replace (c * rule q (fun x => monoval e (half x)) + rule q (fun x => polyval ts (half x)) - (c * M e + v))
          with (c * (rule q (fun x => monoval e (half x)) - M e) + (rule q (fun x => polyval ts (half x)) - v)) by ring.
        eapply Rle_trans; [apply Rabs_triang|]. rewrite Rabs_mult, Rmult_plus_distr_l. apply Rplus_le_compat; [|exact J].
        rewrite Rmult_comm. apply Rmult_le_compat_r; [apply Rabs_pos|exact H1]. }
  destruct G as (v & I & J). exists v, (rule q (fun x => polyval ts (half x))). split; [exact I|]. split; [|exact J].
  now apply q_call_rule.
Qed.
(** No error at all. *)
Lemma within_0 q s n : integrates_within q s n 0 -> sh_ok s -> wf_quad q -> q_dim q = shape_dim s -> integrates q s n.
Proof.
  intros H OK W D phi Hp. destruct (is_poly_half _ _ _ Hp) as (ts & Hts & E).
  destruct (H ts) as (v & r & I & Q & B).
  { exact Hts. }
  rewrite Rmult_0_l in B. assert (r = v) by (pose proof (Rabs_pos (r - v)); assert (Z : Rabs (r - v) = 0) by lra; apply Rabs_eq_0 in Z; lra). subst r.
  exists v. split.
  - eapply is_int_ext; [|exact I]. intros x Hx. cbv beta. symmetry. apply E. now apply in_shape_len.
  - rewrite <- Q. rewrite !(q_call_rule q _ phi W); [reflexivity| |reflexivity].
    intros x Hx. destruct W as (W & _). rewrite Forall_forall in W. f_equal. symmetry. apply E. rewrite <- D. now apply W.
Qed.
