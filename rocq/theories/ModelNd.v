(** * numpy n-dimensional arrays (the part of their semantics modepy relies on).

    numpy is external; these definitions state what [reshape] (order "C" and
    "F"), broadcasting assignment and [np.empty] do to the entries.  They are
    used by the models of modepy/nodes.py:373-425 (tensor_product_nodes) and
    modepy/tools.py:427-489 (reshape/unreshape) and belong to the trusted base.
    Strides, views and dtypes are not modelled. *)
From Coq Require Import List Arith Bool Lia.
From Verif Require Import Py.
Import ListNotations.

(** An array is its shape together with its entries.  Only entries at
    multi-indices that are valid for the shape are meaningful. *)
Record ndarray (A : Type) := mkNd { nd_shape : list nat; nd_at : list nat -> A }.
Arguments mkNd {A} _ _.
Arguments nd_shape {A} _.
Arguments nd_at {A} _ _.

Definition nd_ndim {A} (a : ndarray A) : nat := length (nd_shape a).

(** Position of a multi-index in Fortran (first axis fastest) and C (last axis
    fastest) order, and back. *)
Fixpoint ravelF (sh idx : list nat) : nat :=
  match sh, idx with
  | n :: sh', i :: idx' => i + n * ravelF sh' idx'
  | _, _ => 0
  end.
Fixpoint unravelF (sh : list nat) (k : nat) : list nat :=
  match sh with
  | [] => []
  | n :: sh' => (k mod n) :: unravelF sh' (k / n)
  end.
Fixpoint ravelC (sh idx : list nat) : nat :=
  match sh, idx with
  | n :: sh', i :: idx' => i * prod_nat sh' + ravelC sh' idx'
  | _, _ => 0
  end.
Fixpoint unravelC (sh : list nat) (k : nat) : list nat :=
  match sh with
  | [] => []
  | n :: sh' => (k / prod_nat sh') :: unravelC sh' (k mod prod_nat sh')
  end.

(** [a.reshape(sh, order="F")] and [a.reshape(sh)]: same entries in the given
    traversal order; ValueError if the sizes differ. *)
Definition np_reshapeF {A} (a : ndarray A) (sh : list nat) : res (ndarray A) :=
  if prod_nat sh =? prod_nat (nd_shape a)
  then Ok (mkNd sh (fun idx => nd_at a (unravelF (nd_shape a) (ravelF sh idx))))
  else Err ValueError.
Definition np_reshapeC {A} (a : ndarray A) (sh : list nat) : res (ndarray A) :=
  if prod_nat sh =? prod_nat (nd_shape a)
  then Ok (mkNd sh (fun idx => nd_at a (unravelC (nd_shape a) (ravelC sh idx))))
  else Err ValueError.

(** Broadcasting an array to a larger shape of the same number of axes: axes of
    length 1 are stretched (their index becomes 0), other axes must agree. *)
Fixpoint bcast_ok (src dst : list nat) : bool :=
  match src, dst with
  | [], [] => true
  | n :: src', m :: dst' => ((n =? 1) || (n =? m)) && bcast_ok src' dst'
  | _, _ => false
  end.
Fixpoint bcast_idx (src idx : list nat) : list nat :=
  match src, idx with
  | n :: src', i :: idx' => (if n =? 1 then 0 else i) :: bcast_idx src' idx'
  | _, _ => []
  end.

(** [result[d:d+k] = val] with broadcasting of [val] to the selected slice
    along the first axis. *)
Definition np_assign_rows {A} (result : ndarray A) (d k : nat) (val : ndarray A)
  : res (ndarray A) :=
  match nd_shape result with
  | [] => Err IndexError
  | rows :: rest =>
      let count := Nat.min (d + k) rows - Nat.min d rows in
      if bcast_ok (nd_shape val) (count :: rest) then
        Ok (mkNd (nd_shape result)
              (fun idx => match idx with
                          | r :: idx' =>
                              if (d <=? r) && (r <? d + count)
                              then nd_at val (bcast_idx (nd_shape val) ((r - d) :: idx'))
                              else nd_at result idx
                          | [] => nd_at result idx
                          end))
      else Err ValueError
  end.

(** [np.empty(sh)]: entries are whatever was in memory ([junk]). *)
Definition np_empty {A} (junk : list nat -> A) (sh : list nat) : ndarray A := mkNd sh junk.

(** A two-dimensional array seen as the list of its columns, and back. *)
Definition nd_columns {A} (a : ndarray A) : list (list A) :=
  match nd_shape a with
  | [d; n] => map (fun k => map (fun r => nd_at a [r; k]) (seq 0 d)) (seq 0 n)
  | _ => []
  end.
Definition nd_of_columns {A} (dflt : A) (d : nat) (cols : list (list A)) : ndarray A :=
  mkNd [d; length cols]
       (fun idx => match idx with
                   | [r; k] => nth r (nth k cols []) dflt
                   | _ => dflt
                   end).
