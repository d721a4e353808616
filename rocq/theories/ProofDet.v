(** * Determinants of numpy matrices *)
From Coq Require Import Reals Lia Lra.
From mathcomp Require Import all_ssreflect all_algebra.
From Verif Require Import RField Py RSum ModelLinAlg ProofLinAlg.
Set Implicit Arguments.
Unset Strict Implicit.
Unset Printing Implicit Defensive.
Import GRing.Theory.
Local Open Scope ring_scope.

Lemma det_nonsing n A : nonsing n A <-> \det (toM n n A) <> R0.
Proof.
  rewrite nonsing_unit unitmxE unitfE. split.
  - by move=> /eqP.
  - by move=> H; apply/eqP.
Qed.
Lemma det_upper n A : (forall i j, (j < i)%coq_nat -> (i < n)%coq_nat -> A i j = R0) ->
  \det (toM n n A) = \prod_(i < n) A i i.
Proof.
  move=> H. rewrite -det_tr det_trig.
  - apply: eq_bigr => i _. by rewrite !mxE.
  - apply/is_trig_mxP => i j hij. rewrite !mxE. apply: H; [exact/ltP|exact/ltP/ltn_ord].
Qed.
Lemma big_prod1 (f : nat -> RR) : \prod_(i < 1) f i = f 0%N.
Proof. by rewrite big_ord1. Qed.
Lemma big_prod2 (f : nat -> RR) : \prod_(i < 2) f i = Rmult (f 0%N) (f 1%N).
Proof. by rewrite big_ord_recr big_ord1. Qed.
Lemma big_prod3 (f : nat -> RR) : \prod_(i < 3) f i = Rmult (Rmult (f 0%N) (f 1%N)) (f 2%N).
Proof. by rewrite !big_ord_recr big_ord0 /= mul1r. Qed.
