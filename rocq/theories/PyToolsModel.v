(** * The enumeration helpers that modepy takes from [pytools].

    pytools is an external dependency and not part of /repo.  These
    definitions follow the documented behaviour of the functions imported at
    modepy/nodes.py:490-492, 553, modepy/modes.py:890-892, 1016, 1074,
    modepy/shapes.py:596, modepy/spaces.py:152 and
    modepy/quadrature/grundmann_moeller.py (inside the class); they belong to
    the trusted base. *)
From Coq Require Import List Arith Bool Lia.
From Verif Require Import Py.
Import ListNotations.

(** pytools.generate_nonnegative_integer_tuples_below(n) for a sequence [n]:
    nested loops, the last component varies fastest. *)
Fixpoint gnitb (ns : list nat) : list (list nat) :=
  match ns with
  | [] => [[]]
  | n :: ns' => flat_map (fun i => map (fun base => i :: base) (gnitb ns')) (seq 0 n)
  end.

(** pytools.generate_nonnegative_integer_tuples_summing_to_at_most(n, length):
    the first component varies fastest. *)
Fixpoint gnitsam (n len : nat) : list (list nat) :=
  match len with
  | 0 => [[]]
  | S len' =>
      flat_map (fun i => map (fun remainder => remainder ++ [i]) (gnitsam (n - i) len'))
               (seq 0 (n + 1))
  end.

(** pytools.wandering_element(length, wanderer=1, landscape=0). *)
Definition wandering_element (length : nat) : list (list nat) :=
  map (fun i => repeat 0 i ++ [1] ++ repeat 0 (length - 1 - i)) (seq 0 length).

(** pytools.add_tuples: componentwise sum, as [zip] truncates to the shorter. *)
Fixpoint add_tuples (s t : list nat) : list nat :=
  match s, t with
  | a :: s', b :: t' => (a + b) :: add_tuples s' t'
  | _, _ => []
  end.

(** pytools.single_valued on integers: the common value; ValueError for an
    empty iterable, ValueError (assertion disabled or not) for several values. *)
Definition single_valued (xs : list nat) : res nat :=
  match xs with
  | [] => Err ValueError
  | x :: rest => if forallb (Nat.eqb x) rest then Ok x else Err ValueError
  end.

(** pytools.is_single_valued on integers: ValueError for an empty iterable. *)
Definition is_single_valued (xs : list nat) : res bool :=
  match xs with
  | [] => Err ValueError
  | x :: rest => Ok (forallb (Nat.eqb x) rest)
  end.

(** pytools.generate_decreasing_nonnegative_tuples_summing_to(n, length,
    min_value=0, max_value=None): nonincreasing tuples with the given sum.
    [max_value] is an option ([None] as in Python).  Python compares
    [n <= None] for length 1 at top level, a TypeError; the only caller in
    /repo (grundmann_moeller.py) uses length >= 2 for dim >= 1, and
    here the comparison with [None] is taken as unbounded. *)
Fixpoint gdnts (len : nat) (n : nat) (maxv : option nat) : list (list nat) :=
  match len with
  | 0 => [[]]
  | S len' =>
      match len' with
      | 0 => match maxv with
             | Some m => if n <=? m then [[n]] else []
             | None => [[n]]
             end
      | S _ =>
          let m := match maxv with
                   | None => n
                   | Some m => if n <? m then n else m
                   end in
          flat_map (fun i => map (fun remainder => i :: remainder)
                                 (gdnts len' (n - i) (Some i)))
                   (seq 0 (m + 1))
      end
  end.

(** pytools.generate_permutations. *)
Definition insertions {A} (x : A) (perm : list A) : list (list A) :=
  map (fun i => firstn i perm ++ [x] ++ skipn i perm) (seq 0 (length perm + 1)).
Fixpoint gen_permutations {A} (original : list A) : list (list A) :=
  match original with
  | [] => [[]]
  | x :: rest =>
      match rest with
      | [] => [[x]]
      | _ :: _ => flat_map (insertions x) (gen_permutations rest)
      end
  end.

(** pytools.generate_unique_permutations: each distinct permutation once, at
    its first occurrence. *)
Fixpoint unique_from (had : list (list nat)) (perms : list (list nat)) : list (list nat) :=
  match perms with
  | [] => []
  | p :: rest =>
      if existsb (tuple_eqb p) had then unique_from had rest
      else p :: unique_from (p :: had) rest
  end.
Definition gen_unique_permutations (original : list nat) : list (list nat) :=
  unique_from [] (gen_permutations original).
