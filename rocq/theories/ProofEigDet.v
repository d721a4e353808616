(** * Determinants of tridiagonal matrices *)
From Coq Require Import Reals Lia Lra.
From mathcomp Require Import all_ssreflect all_algebra.
From Verif Require Import RField Py RSum ModelLinAlg ProofLinAlg ProofDet.
Set Implicit Arguments.
Unset Strict Implicit.
Import GRing.Theory.
Local Open Scope ring_scope.

Definition tridiagonal (f : nat -> nat -> RR) : Prop := forall i j, (i.+1 < j)%N \/ (j.+1 < i)%N -> f i j = R0.

Lemma row_last m (f : nat -> nat -> RR) : row' ord_max (col' ord_max (toM m.+1 m.+1 f)) = toM m m f.
Proof. by apply/matrixP=> i j; rewrite !mxE !lift_max. Qed.
(** Expansion along the last row when only its last two entries may be nonzero. *)
Lemma det_tridiagonal m f : tridiagonal f ->
  \det (toM m.+2 m.+2 f) = Rminus (Rmult (f m.+1 m.+1) (\det (toM m.+1 m.+1 f))) (Rmult (Rmult (f m.+1 m) (f m m.+1)) (\det (toM m m f))).
Proof.
  move=> T. rewrite (expand_det_row _ ord_max) big_ord_recr big_ord_recr /=.
  rewrite big1 ?add0r; last first.
  { move=> i _. rewrite mxE /= T ?mul0r //. right. by rewrite ltnS ltn_ord. }
  rewrite !mxE /= /cofactor row_last /=.
  have E : \det (row' ord_max (col' (widen_ord (leqnSn m.+1) ord_max) (toM m.+2 m.+2 f))) = Rmult (f m m.+1) (\det (toM m m f)).
  { rewrite (expand_det_col _ ord_max) big_ord_recr /= big1 ?add0r; last first.
    { move=> i _. rewrite !mxE /= T ?mul0r //. left. rewrite /bump !leqnn /= !addnE /=.
      have H : (i < m)%N by exact: ltn_ord. have -> : (m.+1 <= i)%N = false by apply/negbTE; rewrite -ltnNge ltnS ltnW.
      exact: H. }
    rewrite !mxE /= /bump leqnn /= ltnn add0n add1n. congr (_ * _).
    rewrite /cofactor /= addnn -signr_odd odd_double expr0 mul1r. congr (\det _).
    apply/matrixP=> i j. rewrite !mxE /= /bump.
    have Hi : (i < m)%N by exact: ltn_ord. have Hj : (j < m)%N by exact: ltn_ord.
    rewrite (leqNgt m i) Hi /= add0n (leqNgt m j) Hj /= add0n (leqNgt m j) Hj /= add0n.
    by rewrite (leqNgt m.+1 i) ltnS ltnW. }
  rewrite E addnn -[(-1) ^+ _.*2]signr_odd odd_double expr0 mul1r -[(-1) ^+ (_ + _)]signr_odd oddD /= addNb addbb /= expr1.
  rewrite mulN1r. change (Rplus (Rmult (f m.+1 m) (Ropp (Rmult (f m m.+1) (\det (toM m m f))))) (Rmult (f m.+1 m.+1) (\det (toM m.+1 m.+1 f)))
    = Rminus (Rmult (f m.+1 m.+1) (\det (toM m.+1 m.+1 f))) (Rmult (Rmult (f m.+1 m) (f m m.+1)) (\det (toM m m f)))). ring.
Qed.
Lemma det_toM0 f : \det (toM 0 0 f) = R1.
Proof. by rewrite det_mx00. Qed.
Lemma det_toM1 f : \det (toM 1 1 f) = f 0%N 0%N.
Proof. by rewrite det_mx11 !mxE. Qed.

(** mathcomp's determinant of the [m] x [m] matrix with entries [f i j] *)
Definition ndet (m : nat) (f : nat -> nat -> R) : R := \det (toM m m f).
Lemma ndet_ext m f g : (forall i j, (i < m)%coq_nat -> (j < m)%coq_nat -> f i j = g i j) -> ndet m f = ndet m g.
Proof. move=> H. rewrite /ndet. congr (\det _). apply/matrixP=> i j. rewrite !mxE. apply: H; apply/ltP; exact: ltn_ord. Qed.
Lemma ndet_0 f : ndet 0 f = R1. Proof. exact: det_toM0. Qed.
Lemma ndet_1 f : ndet 1 f = f 0%N 0%N. Proof. exact: det_toM1. Qed.
Lemma ndet_rec m (f : nat -> nat -> R) : (forall i j, (S i < j)%coq_nat \/ (S j < i)%coq_nat -> f i j = R0) ->
  ndet m.+2 f = Rminus (Rmult (f m.+1 m.+1) (ndet m.+1 f)) (Rmult (Rmult (f m.+1 m) (f m m.+1)) (ndet m f)).
Proof. move=> H. apply: det_tridiagonal => i j [/ltP L|/ltP L]; apply: H; [by left|by right]. Qed.
