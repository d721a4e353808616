(** * Specification vocabulary: reference elements.

    The bi-unit simplex is the set of points with coordinates at least -1 whose
    sum is at most 2 - d; products of elements are sets of concatenated points. *)
From Coq Require Import List Arith Reals Lra Lia.
From Verif Require Import ModelShapes.
Import ListNotations.
Local Open Scope R_scope.

Definition list_sum (l : list R) : R := fold_right Rplus 0 l.

Definition in_simplex (d : nat) (x : list R) : Prop :=
  length x = d /\ Forall (fun c => -1 <= c) x /\ list_sum x <= 2 - INR d.

Fixpoint in_shape (s : shape) (x : list R) {struct s} : Prop :=
  match s with
  | Simplex d => in_simplex d x
  | TPShape _ _ bases =>
      (fix in_all (bs : list shape) (x : list R) : Prop :=
         match bs with
         | [] => x = []
         | b :: bs' => exists p q, x = p ++ q /\ in_shape b p /\ in_all bs' q
         end) bases x
  end.

(** Barycentric coordinates of a point of the bi-unit simplex with respect to
    the vertices (-1,...,-1), (1,-1,...,-1), ..., (-1,...,-1,1). *)
Definition barycentric (x : list R) : list R :=
  (1 - list_sum (map (fun c => (c + 1) / 2) x)) :: map (fun c => (c + 1) / 2) x.
