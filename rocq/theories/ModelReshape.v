(** * Tensor-product reshaping: modepy/tools.py:424-489 *)
From Coq Require Import List Arith Bool ZArith Lia.
From Verif Require Import Py ModelNd ModelShapes ModelSpaces.
Import ListNotations.

(** [ary.shape[a:b]] for nonnegative bounds. *)
Definition slice {A} (a b : nat) (l : list A) : list A := firstn (b - a) (skipn a l).

(** modepy/tools.py:447-452 and 474-478: a negative axis counts from the end. *)
Definition normalize_axis (axis : Z) (n : Z) : res nat :=
  let axis := if (axis <? 0)%Z then (axis + n)%Z else axis in
  if ((0 <=? axis) && (axis <? n))%Z then Ok (Z.to_nat axis) else Err ValueError.

(** modepy/tools.py:427-462: [reshape_array_for_tensor_product_space]. *)
Definition reshape_array_for_tensor_product_space {A}
    (space : fspace) (ary : ndarray A) (axis : Z) : res (ndarray A) :=
  match space with
  | PN _ _ => Ok ary
  | TPSpace _ bases =>
      let ndim := length (nd_shape ary) in
      let* axis := normalize_axis axis (Z.of_nat ndim) in
      let* len := getitem (nd_shape ary) axis in
      if negb (len =? space_dim space) then Err ValueError
      else np_reshapeF ary (slice 0 axis (nd_shape ary)
                            ++ map space_dim bases
                            ++ skipn (axis + 1) (nd_shape ary))
  end.

(** modepy/tools.py:465-489: [unreshape_array_for_tensor_product_space]. *)
Definition unreshape_array_for_tensor_product_space {A}
    (space : fspace) (ary : ndarray A) (axis : Z) : res (ndarray A) :=
  match space with
  | PN _ _ => Ok ary
  | TPSpace _ bases =>
      let n_tp_axes := length bases in
      let naxes := (Z.of_nat (length (nd_shape ary)) - Z.of_nat n_tp_axes + 1)%Z in
      let* axis := normalize_axis axis naxes in
      let expected_space_dims := map space_dim bases in
      if negb (tuple_eqb (slice axis (axis + n_tp_axes) (nd_shape ary)) expected_space_dims)
      then Err ValueError
      else np_reshapeF ary (slice 0 axis (nd_shape ary)
                            ++ [space_dim space]
                            ++ skipn (axis + n_tp_axes) (nd_shape ary))
  end.
