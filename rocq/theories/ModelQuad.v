(** * Quadrature rules: modepy/quadrature/__init__.py:66-358

    Rule tables and the selection function quadrature_for_space are in
    ModelQuadSpace.v. *)
From Coq Require Import List Arith Bool ZArith QArith Reals Lia.
From Verif Require Import Py PyToolsModel ModelNd ModelShapes ModelSpaces ModelNodes ModelModes.
Import ListNotations.

(** ** Degrees.  A value that may be compared with the sentinel: a finite Python
    or numpy number (a rational), a float infinity ([np.inf] / [-np.inf]), or
    an [_Inf] instance.  NaN is not modelled. *)
Inductive pynum : Type :=
| NFin (q : Q)
| NNpInf (positive : bool)
| NInf.

(** Rich comparison methods return [None] for NotImplemented. *)

(** quadrature/__init__.py:75-77 *)
Definition inf_eq (other : pynum) : bool := match other with NInf => true | _ => false end.
(** quadrature/__init__.py:79-88 *)
Definition inf_gt (other : pynum) : option bool :=
  match other with NInf => Some false | NNpInf _ => None | NFin _ => Some true end.
(** quadrature/__init__.py:90-99 *)
Definition inf_ge (other : pynum) : option bool :=
  match other with NInf => Some true | NNpInf _ => None | NFin _ => Some true end.
(** quadrature/__init__.py:102-111 *)
Definition inf_lt (other : pynum) : option bool :=
  match other with NInf => Some false | NNpInf _ => None | NFin _ => Some false end.
(** quadrature/__init__.py:113-120 *)
Definition inf_le (other : pynum) : option bool :=
  match other with NInf => Some true | NNpInf _ | NFin _ => Some false end.

Definition Qlt_bool (a b : Q) : bool := negb (Qle_bool b a).

(** Comparisons of Python floats and ints among themselves; [None] when the other
    operand is an [_Inf]. *)
Definition num_lt (a b : pynum) : option bool :=
  match a, b with
  | NFin x, NFin y => Some (Qlt_bool x y)
  | NFin _, NNpInf p => Some p
  | NNpInf p, NFin _ => Some (negb p)
  | NNpInf p, NNpInf p' => Some (negb p && p')
  | _, _ => None
  end.
Definition num_eq (a b : pynum) : option bool :=
  match a, b with
  | NFin x, NFin y => Some (Qeq_bool x y)
  | NNpInf p, NNpInf p' => Some (Bool.eqb p p')
  | NFin _, NNpInf _ | NNpInf _, NFin _ => Some false
  | _, _ => None
  end.
Definition num_le (a b : pynum) : option bool :=
  match num_lt a b, num_eq a b with Some l, Some e => Some (l || e) | _, _ => None end.

(** Python's comparison protocol: the left operand's method, then the reflected
    method of the right operand, then TypeError. *)
Definition refl (x y : option bool) : res bool :=
  match x with
  | Some v => Ok v
  | None => match y with Some v => Ok v | None => Err TypeError end
  end.
Definition py_lt (a b : pynum) : res bool :=
  match a with
  | NInf => refl (inf_lt b) (match b with NInf => inf_gt a | _ => num_lt b a end)
  | _ => refl (num_lt a b) (match b with NInf => inf_gt a | _ => None end)
  end.
Definition py_le (a b : pynum) : res bool :=
  match a with
  | NInf => refl (inf_le b) (match b with NInf => inf_ge a | _ => num_le b a end)
  | _ => refl (num_le a b) (match b with NInf => inf_ge a | _ => None end)
  end.
Definition py_gt (a b : pynum) : res bool :=
  match a with
  | NInf => refl (inf_gt b) (match b with NInf => inf_lt a | _ => num_lt b a end)
  | _ => refl (num_lt b a) (match b with NInf => inf_lt a | _ => None end)
  end.
Definition py_ge (a b : pynum) : res bool :=
  match a with
  | NInf => refl (inf_ge b) (match b with NInf => inf_le a | _ => num_le b a end)
  | _ => refl (num_le b a) (match b with NInf => inf_le a | _ => None end)
  end.
(** [==] falls back to identity, which differs for different kinds. *)
Definition py_eq (a b : pynum) : bool :=
  match a, b with
  | NInf, _ => inf_eq b
  | _, NInf => inf_eq a
  | _, _ => match num_eq a b with Some v => v | None => false end
  end.
(** quadrature/__init__.py:122-127: [a + b] where one of the operands is the sentinel; there is no
    [__radd__]. *)
Definition py_add_inf (a b : pynum) : res pynum :=
  match a, b with
  | NInf, NFin _ => Ok NInf
  | NFin x, NFin y => Ok (NFin (x + y))
  | NNpInf p, NFin _ | NFin _, NNpInf p => Ok (NNpInf p)
  | NNpInf p, NNpInf p' => if Bool.eqb p p' then Ok (NNpInf p) else Err ValueError (* NaN *)
  | _, _ => Err TypeError
  end.
(** quadrature/__init__.py:136-137 *)
Definition py_isinf (a : pynum) : bool := match a with NInf => true | _ => false end.

(** [min(iterable)] where producing an item may raise: the first item is kept and
    replaced whenever [item < current]. *)
Fixpoint py_min_from (cur : pynum) (items : list (res pynum)) : res pynum :=
  match items with
  | [] => Ok cur
  | it :: rest =>
      let* x := it in
      let* b := py_lt x cur in
      py_min_from (if b then x else cur) rest
  end.
Definition py_min (items : list (res pynum)) : res pynum :=
  match items with
  | [] => Err ValueError
  | it :: rest => let* x := it in py_min_from x rest
  end.

Definition degree (n : nat) : pynum := NFin (inject_Z (Z.of_nat n)).

(** ** Rules *)
Local Open Scope R_scope.

(** quadrature/__init__.py:140-162: a Quadrature object.  [q_flat]: the nodes are a
    one-dimensional array (then every column is a singleton and q_dim = 1);
    otherwise a [(q_dim, nnodes)] array given by its columns. *)
Record quad := mkQuad {
  q_flat : bool;
  q_dim : nat;               (* :164-167 *)
  q_nodes : list (list R);
  q_weights : list R;
  q_exact : option pynum     (* [_exact_to] *)
}.
(** quadrature/__init__.py:169-187 *)
Definition exact_to (q : quad) : res pynum :=
  match q_exact q with Some d => Ok d | None => Err AttributeError end.

(** [np.dot(w, v)] for vectors. *)
Definition dotR (w v : list R) : R := fold_right Rplus 0 (map (fun p => fst p * snd p) (combine w v)).
(** quadrature/__init__.py:189-199: [q(f)] for a scalar-valued pointwise [f]
    (1-D arrays of points are seen as the list of their singleton points). *)
Definition q_call (q : quad) (f : list R -> res R) : res R :=
  let* vals := mapM f (q_nodes q) in
  if (length (q_weights q) =? length vals)%nat then Ok (dotR (q_weights q) vals) else Err ValueError.

(** quadrature/__init__.py:202-209 *)
Definition zero_dim_quad : quad := mkQuad false 0 [[]] [1] (Some (NNpInf true)).

(** quadrature/__init__.py:212-230 *)
Definition transformed_1d (q : quad) (left right : R) : res quad :=
  let length := right - left in
  if Rle_dec length 0 then Err ValueError
  else Ok (mkQuad (q_flat q) (q_dim q)
                  (map (map (fun x => left + (x + 1) / 2 * length)) (q_nodes q))
                  (map (fun w => length / 2 * w) (q_weights q))
                  (q_exact q)).

(** quadrature/__init__.py:233-271: TensorProductQuadrature.  One-dimensional
    node arrays are reshaped to one row by tensor_product_nodes; [np.prod(.., axis=0)]
    multiplies the rows. *)
Definition quad_points (q : quad) : points := mkPts (q_dim q) (q_nodes q).
Definition weight_points (q : quad) : points := mkPts 1 (map (fun w => [w]) (q_weights q)).
Definition tp_quad (quads : list quad) : res quad :=
  let* x := tensor_product_pts (map quad_points quads) in
  let* ws := tensor_product_pts (map weight_points quads) in
  let w := map (fun c => fold_left Rmult c 1) (pts_cols ws) in
  if negb (length w =? length (pts_cols x))%nat then Err AssertionE
  else
    let* ex :=
      match quads with
      | [] => Ok (Some NInf)
      | _ => match py_min (map exact_to quads) with
             | Ok d => Ok (Some d)
             | Err AttributeError => Ok None
             | Err e => Err e
             end
      end in
    Ok (mkQuad false (pts_dim x) (pts_cols x) w ex).
