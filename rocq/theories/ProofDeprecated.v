(** Facts for C69: the modal matrices of the deprecated functions; la.solve and mdot see only entries inside the shape. *)
From Coq Require Import Reals.
From mathcomp Require Import all_ssreflect all_algebra.
From Verif Require Import RField Py RSum ModelLinAlg ProofLinAlg.
Set Implicit Arguments.
Unset Strict Implicit.
Unset Printing Implicit Defensive.

Lemma np_solve_ext A B C : nrows B = nrows C -> ncols B = ncols C ->
  (forall i j, (i < nrows B)%coq_nat -> (j < ncols B)%coq_nat -> ent B i j = ent C i j) -> np_solve A B = np_solve A C.
Proof.
  rewrite /np_solve => h1 h2 H. case: ifP => // _. rewrite h1. case: (Nat.eqb_spec (nrows C) (nrows A)) => // h3.
  case: ifP => // _. rewrite -h2. do 3!f_equal. f_equal. apply: toM_eq => i j hi hj. apply: H => //. by rewrite h1 h3.
Qed.
