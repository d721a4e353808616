(** * Python-level conventions shared by all model files.

    Nothing here models a function of modepy; it fixes how Python exceptions,
    sequences, dictionaries and array indexing are represented. *)
From Coq Require Import List Arith Bool Lia.
Import ListNotations.

(** Exceptions are values: one constructor per Python exception class that the
    modelled code can raise.  [RuleUnavailable] is
    modepy/quadrature/__init__.py:66-69 [QuadratureRuleUnavailable],
    [BasisNotOrthonormalE] is modepy/modes.py:774-775, [LinAlgError] is
    numpy.linalg.LinAlgError, [OutOfFuel] marks a loop that was cut off by
    the model (never a Python exception). *)
Inductive pyexc : Set :=
| ValueError | TypeError | KeyError | IndexError | AttributeError
| NotImplementedE | AssertionE | ZeroDivision | StopIterationE
| RuleUnavailable | BasisNotOrthonormalE | LinAlgError | RuntimeE | OutOfFuel.

Inductive res (A : Type) : Type :=
| Ok (a : A)
| Err (e : pyexc).
Arguments Ok {A} a.
Arguments Err {A} e.

Definition bind {A B} (x : res A) (f : A -> res B) : res B :=
  match x with Ok a => f a | Err e => Err e end.
Notation "'let*' x := e 'in' f" := (bind e (fun x => f))
  (at level 200, x name, e at level 100, f at level 200, right associativity).

(** Evaluating a comprehension [[f(x) for x in xs]]: left to right, the first
    exception wins. *)
Section MapM.
  Context {A B : Type} (f : A -> res B).
  Fixpoint mapM (xs : list A) : res (list B) :=
    match xs with
    | [] => Ok []
    | x :: xs' => let* y := f x in let* ys := mapM xs' in Ok (y :: ys)
    end.
End MapM.

(** [zip(xs, ys, strict=True)] inside a comprehension: the pairs are produced
    one by one and a length mismatch raises ValueError when it is reached. *)
Section ZipM.
  Context {A B C : Type} (f : A -> B -> res C).
  Fixpoint zipM (xs : list A) (ys : list B) : res (list C) :=
    match xs, ys with
    | [], [] => Ok []
    | x :: xs', y :: ys' => let* z := f x y in let* zs := zipM xs' ys' in Ok (z :: zs)
    | _, _ => Err ValueError
    end.
End ZipM.

(** [xs[i]] for a nonnegative index. *)
Definition getitem {A} (xs : list A) (i : nat) : res A :=
  match nth_error xs i with Some x => Ok x | None => Err IndexError end.

(** [int(np.prod(ns))] and [sum(ns)]. *)
Definition prod_nat (ns : list nat) : nat := fold_right Nat.mul 1 ns.
Definition sum_nat (ns : list nat) : nat := fold_right Nat.add 0 ns.

(** [sum(tuples, ())]: concatenation. *)
Definition concat_tuples {A} (ts : list (list A)) : list A := List.concat ts.

(** Equality of integer tuples, used as dictionary keys. *)
Fixpoint tuple_eqb (s t : list nat) : bool :=
  match s, t with
  | [], [] => true
  | a :: s', b :: t' => (a =? b) && tuple_eqb s' t'
  | _, _ => false
  end.

(** A dictionary [{ituple: idx for idx, ituple in enumerate(node_tuples)}]
    followed by a lookup: the last index at which the key occurs, KeyError if
    it does not occur. *)
Fixpoint dict_index_from (start : nat) (keys : list (list nat)) (k : list nat) : option nat :=
  match keys with
  | [] => None
  | key :: rest =>
      match dict_index_from (S start) rest k with
      | Some i => Some i
      | None => if tuple_eqb key k then Some start else None
      end
  end.
Definition dict_index (keys : list (list nat)) (k : list nat) : res nat :=
  match dict_index_from 0 keys k with Some i => Ok i | None => Err KeyError end.

Lemma tuple_eqb_eq s t : tuple_eqb s t = true <-> s = t.
Proof.
  revert t; induction s as [|a s IH]; destruct t as [|b t]; simpl; try easy.
  rewrite andb_true_iff, Nat.eqb_eq, IH; split.
  - intros [-> ->]; reflexivity.
  - intros E; inversion E; auto.
Qed.

Lemma tuple_eqb_refl s : tuple_eqb s s = true.
Proof. now apply tuple_eqb_eq. Qed.
