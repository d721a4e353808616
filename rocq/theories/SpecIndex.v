(** * Specification vocabulary for indexing properties.

    Independent of the model's helpers: mixed-radix numbers and selections. *)
From Coq Require Import List Arith Lia.
Import ListNotations.

(** The number with the given digits, first digit least significant:
    i_1 + n_1 * (i_2 + n_2 * (...)). *)
Fixpoint mixed_radix (radices digits : list nat) : nat :=
  match radices, digits with
  | n :: radices', i :: digits' => i + n * mixed_radix radices' digits'
  | _, _ => 0
  end.

(** [digits] are legal digits: each one is smaller than its radix. *)
Definition legal_digits (radices digits : list nat) : Prop := Forall2 lt digits radices.

(** [parts] selects, from each list of [lists], the element at the position
    given by the corresponding digit. *)
Inductive selects {A} : list (list A) -> list nat -> list A -> Prop :=
| selects_nil : selects [] [] []
| selects_cons l lists i digits a parts :
    nth_error l i = Some a -> selects lists digits parts ->
    selects (l :: lists) (i :: digits) (a :: parts).

(** Sum and product of a list of numbers. *)
Definition total (l : list nat) : nat := fold_right Nat.add 0 l.
Definition product_of (l : list nat) : nat := fold_right Nat.mul 1 l.
