(** * Boundary of a set of points (specification vocabulary) *)
From Coq Require Import List Reals.
Local Open Scope R_scope.
(** x belongs to the set, and points outside (with the same number of coordinates) are arbitrarily close. *)
Definition boundary (P : list R -> Prop) (x : list R) : Prop :=
  P x /\ forall eps, 0 < eps -> exists y, length y = length x /\ (forall i, (i < length x)%nat -> Rabs (nth i y 0 - nth i x 0) < eps) /\ ~ P y.
