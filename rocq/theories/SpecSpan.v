(** * Linear combinations of nodal functions, unisolvence: vocabulary for the
    statements about matrices *)
From Coq Require Import List Arith Bool ZArith Reals Lra Lia.
From Verif Require Import Py RSum SpecPartial.
Import ListNotations.
Local Open Scope R_scope.

(** The j-th function, as a real function (0 where it raises). *)
Definition fn (fs : list (list R -> res R)) (j : nat) (x : list R) : R :=
  valR (nth j fs (fun _ => Err IndexError)) x.
(** [sum_j c_j f_j(x)] *)
Definition lin (fs : list (list R -> res R)) (c : nat -> R) (x : list R) : R :=
  rsum (fun j => c j * fn fs j x) (length fs).
(** All functions evaluate without raising at all points. *)
Definition defined_on (fs : list (list R -> res R)) (xs : list (list R)) : Prop :=
  forall f x, In f fs -> In x xs -> exists v, f x = Ok v.
(** Only the zero combination vanishes at all the points. *)
Definition independent_on (fs : list (list R -> res R)) (xs : list (list R)) : Prop :=
  forall c, (forall x, In x xs -> lin fs c x = 0) -> forall k, (k < length fs)%nat -> c k = 0.
(** As many points as functions, and interpolation is unique. *)
Definition unisolvent (fs : list (list R -> res R)) (xs : list (list R)) : Prop :=
  length fs = length xs /\ independent_on fs xs.
(** The i-th point. *)
Definition pt (xs : list (list R)) (i : nat) : list R := nth i xs [].
Definition delta (i j : nat) : R := if (i =? j)%nat then 1 else 0.
