(** * Equality, copying and pickling of shapes and spaces: modepy/shapes.py:242-494,
    modepy/spaces.py:113-146, 249-279, with the generated or inherited methods
    [__eq__] and [__reduce_ex__]. *)
From Coq Require Import List Arith Bool Lia.
From Verif Require Import Py PyToolsModel ModelShapes ModelSpaces.
Import ListNotations.

(** The class of a tensor-product shape. *)
Definition tpcls_eqb (a b : tpcls) : bool :=
  match a, b with CTensorProduct, CTensorProduct | CHypercube, CHypercube => true | _, _ => false end.

(** modepy/shapes.py:242, 335, 402, 473: [s == t] as generated by
    [@dataclass(frozen=True)]: objects of the same class are compared by the tuples of
    their fields (dim; dim, bases), objects of different classes are different. *)
Fixpoint shape_eq (s t : shape) {struct s} : bool :=
  match s, t with
  | Simplex d, Simplex d' => d =? d'
  | TPShape c d bs, TPShape c' d' bs' =>
      tpcls_eqb c c' && (d =? d')
      && (fix tuple_eq (l l' : list shape) {struct l} : bool :=
            match l, l' with
            | [], [] => true
            | a :: l, a' :: l' => shape_eq a a' && tuple_eq l l'
            | _, _ => false
            end) bs bs'
  | _, _ => false
  end.

(** [pickle.loads(pickle.dumps(s))] with protocol 2 or later, and [copy.deepcopy(s)], for a
    shape: [cls.__new__(cls, *s.__getnewargs__())], without arguments if there is no such
    method, and then [__dict__.update].  modepy/shapes.py:242-264, 402-414: Simplex
    inherits [object.__new__].  :353-357: TensorProductShape.__new__ has a required
    argument, and no [__getnewargs__] supplies it.  :483-494: that of Hypercube does; for
    dim = 1 [__new__] would return a Simplex(1), whose field dim is then set to the same
    value (the additional attribute bases is left out here). *)
Fixpoint copy_shape (s : shape) : res shape :=
  match s with
  | Simplex d => Ok (Simplex d)
  | TPShape CTensorProduct _ _ => Err TypeError
  | TPShape CHypercube d bases =>
      let* bases' := mapM copy_shape bases in
      if d =? 1 then Ok (Simplex d) else Ok (TPShape CHypercube d bases')
  end.

(** The same for spaces.  modepy/spaces.py:200-213: PN inherits [object.__new__].
    :131-145: TensorProductSpace passes its bases; for a single base [__new__] returns that
    base (which then gets an additional attribute bases, left out here; a single base that
    is itself a tensor product does not occur, since bases are flattened).  :266-273:
    QN inherits [__getnewargs__], but its [__new__] takes two arguments. *)
Fixpoint copy_space (s : fspace) : res fspace :=
  match s with
  | PN d n => Ok (PN d n)
  | TPSpace c bases =>
      let* bases' := mapM copy_space bases in
      match c with
      | SQN => Err TypeError
      | STensorProduct => match bases' with [b] => Ok b | _ => Ok (TPSpace STensorProduct bases') end
      end
  end.
