(** * Function spaces: modepy/spaces.py *)
From Coq Require Import List Arith Bool Lia.
From Verif Require Import Py PyToolsModel ModelShapes.
Import ListNotations.

(** [math.comb] (Python standard library): binomial coefficient, 0 for k > n. *)
Fixpoint comb (n k : nat) {struct n} : nat :=
  match n, k with
  | _, 0 => 1
  | 0, S _ => 0
  | S n', S k' => comb n' k' + comb n' (S k')
  end.

(** Which class a tensor-product space object is an instance of:
    modepy/spaces.py:113 TensorProductSpace or :249 QN. *)
Inductive spcls : Set := STensorProduct | SQN.

(** FunctionSpace objects: modepy/spaces.py:200-213 PN (fields _spatial_dim,
    _order) and :113-146 TensorProductSpace/QN (field bases).  User-defined
    subclasses of FunctionSpace are not modelled; orders and dimensions are
    nonnegative. *)
Inductive fspace : Type :=
| PN (spatial_dim order : nat)
| TPSpace (cls : spcls) (bases : list fspace).

(** modepy/spaces.py:137-141 TensorProductSpace.__init__: flatten. *)
Definition space_flatten (bases : list fspace) : list fspace :=
  concat_tuples (map (fun s => match s with
                               | TPSpace _ bs => bs
                               | PN _ _ => [s]
                               end) bases).
Definition tps_init (cls : spcls) (bases : list fspace) : fspace :=
  TPSpace cls (space_flatten bases).

(** modepy/spaces.py:131-141: [TensorProductSpace(bases)].  [__new__] returns
    bases[0] for a single base; Python then calls [type(obj).__init__] on the
    result exactly if it is an instance of TensorProductSpace.  For a QN that
    is [QN.__init__(self, bases)] with a missing argument: TypeError. *)
Definition mk_TensorProductSpace (bases : list fspace) : res fspace :=
  match bases with
  | [PN d n] => Ok (PN d n)
  | [TPSpace STensorProduct _] => Ok (tps_init STensorProduct bases)
  | [TPSpace SQN _] => Err TypeError
  | _ => Ok (tps_init STensorProduct bases)
  end.

(** modepy/spaces.py:266-273: [QN(spatial_dim, order)]. *)
Definition mk_QN (spatial_dim order : nat) : fspace :=
  if spatial_dim =? 1 then PN spatial_dim order
  else tps_init SQN (repeat (PN 1 order) spatial_dim).

(** modepy/spaces.py:158-161, 221-224: [spatial_dim]. *)
Fixpoint spatial_dim (s : fspace) : nat :=
  match s with
  | PN d _ => d
  | TPSpace _ bases => sum_nat (map spatial_dim bases)
  end.

(** modepy/spaces.py:163-166, 226-230: [space_dim]. *)
Fixpoint space_dim (s : fspace) : nat :=
  match s with
  | PN d n => comb (n + d) d
  | TPSpace _ bases => prod_nat (map space_dim bases)
  end.

(** modepy/spaces.py:147-156, 215-219, 275-279: [order]. *)
Fixpoint space_order (s : fspace) : res nat :=
  match s with
  | PN _ n => Ok n
  | TPSpace SQN bases =>
      match bases with [] => Err IndexError | b :: _ => space_order b end
  | TPSpace STensorProduct bases =>
      let* orders := mapM space_order bases in
      let* single := is_single_valued orders in
      if single
      then match bases with [] => Err IndexError | b :: _ => space_order b end
      else Err AttributeError
  end.

(** An [order] argument: an int or a tuple of ints. *)
Inductive order_arg : Set := OInt (n : nat) | OTuple (ns : list nat).

(** modepy/spaces.py:91-106, 176-193, 239-242: [space_for_shape]. *)
Fixpoint space_for_shape (sh : shape) (order : order_arg) : res fspace :=
  match sh with
  | Simplex d =>
      match order with
      | OInt n => Ok (PN d n)
      | OTuple _ => Err AssertionE
      end
  | TPShape _ _ bases =>
      let nbases := length bases in
      let* orders :=
        match order with
        | OInt n => Ok (repeat n nbases)
        | OTuple ns => if length ns =? nbases then Ok ns else Err ValueError
        end in
      let* spaces := zipM (fun b n => space_for_shape b (OInt n)) bases orders in
      mk_TensorProductSpace spaces
  end.
