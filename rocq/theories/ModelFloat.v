(** * Double precision: equispaced nodes (modepy/nodes.py:496-509, 569-582), application,
    transformation and products of quadrature rules (modepy/quadrature/__init__.py:189-271)

    The other model files compute with real numbers.  Here every arithmetic operation is
    followed by rounding to binary64 (nearest, ties to even), with gradual underflow;
    overflow is not modelled (it cannot occur in the nodes of spaces).  Numbers are the real
    values of the doubles. *)
From Flocq Require Import Core.
From Coq Require Import List Arith Bool ZArith Reals Permutation Lia.
From Verif Require Import Py PyToolsModel ModelNd ModelShapes ModelSpaces ModelNodes ModelQuad ModelTools.
Import ListNotations.
Local Open Scope R_scope.

(** Rounding to binary64 (IEEE 754, as in numpy's float64): 53 bits, least exponent -1074. *)
Definition rnd64 : R -> R := round radix2 (FLT_exp (-1074) 53) ZnearestE.

(** nodes.py:508-509: [t / space.order*2 - 1] for one index; indices and orders below 2^53
    are doubles. *)
Definition node64 (n t : nat) : R := rnd64 (rnd64 (rnd64 (INR t / INR n) * 2) - 1).
(** nodes.py:508-509, transposed as in [scale_tuples]. *)
Definition scale_tuples64 (dims n : nat) (tuples : list (list nat)) : points :=
  mkPts dims (map (map (node64 n)) tuples).

(** nodes.py:496-509, 569-582: [equispaced_nodes_for_space].  For order 0 (:503-506)
    [np.mean] adds entries 1 and -1, which is exact in every order of summation for fewer
    than 2^53 vertices, and rounds one quotient. *)
Fixpoint equispaced_nodes_for_space64 (space : fspace) (sh : shape) {struct space} : res points :=
  match space with
  | PN d n =>
      match sh with
      | Simplex sd =>
          if negb (d =? sd)%nat then Err ValueError
          else if (n =? 0)%nat then
            let p := mean_column (unit_vertices_for_simplex d) in
            Ok (mkPts (pts_dim p) (map (map rnd64) (pts_cols p)))
          else let* tuples := node_tuples_for_space space in
               Ok (scale_tuples64 d n tuples)
      | TPShape _ _ _ => Err NotImplementedE
      end
  | TPSpace _ bases =>
      match sh with
      | Simplex _ => Err NotImplementedE
      | TPShape _ sd shbases =>
          if negb (spatial_dim space =? sd)%nat then Err ValueError
          else
            let* node_sets := zipM (fun b s => equispaced_nodes_for_space64 b s) bases shbases in
            tensor_product_pts node_sets
      end
  end.

(** [np.dot(w, v)] for vectors of doubles.  BLAS is free in the order of summation, may keep several
    partial sums that start at zero, and may use fused multiply-add; so this is a relation between the
    list of factors and the possible results. *)
Inductive dot64 : list (R * R) -> R -> Prop :=
| dot64_nil : dot64 [] 0
| dot64_mult a b : dot64 [(a, b)] (rnd64 (a * b))
| dot64_add l m x y : dot64 l x -> dot64 m y -> dot64 (l ++ m) (rnd64 (x + y))
| dot64_fma l x a b : dot64 l x -> dot64 (l ++ [(a, b)]) (rnd64 (x + a * b))
| dot64_perm l m x : Permutation l m -> dot64 l x -> dot64 m x.
(** quadrature/__init__.py:189-199: [q(f)] for a scalar-valued pointwise [f], as in [q_call]; weights and
    values are doubles. *)
Inductive q_call64 (q : quad) (f : list R -> res R) : res R -> Prop :=
| call64_f e : mapM f (q_nodes q) = Err e -> q_call64 q f (Err e)
| call64_shape vals : mapM f (q_nodes q) = Ok vals -> length (q_weights q) <> length vals -> q_call64 q f (Err ValueError)
| call64_ok vals r : mapM f (q_nodes q) = Ok vals -> length (q_weights q) = length vals ->
    dot64 (combine (q_weights q) vals) r -> q_call64 q f (Ok r).

(** quadrature/__init__.py:212-230: one node and one weight of [Transformed1DQuadrature]. *)
Definition tnode64 (left length x : R) : R :=
  rnd64 (left + rnd64 (rnd64 (rnd64 (x + 1) / 2) * length)).
Definition tweight64 (length w : R) : R := rnd64 (rnd64 (length / 2) * w).
(** quadrature/__init__.py:212-230 *)
Definition transformed_1d64 (q : quad) (left right : R) : res quad :=
  let length := rnd64 (right - left) in
  if Rle_dec length 0 then Err ValueError
  else Ok (mkQuad (q_flat q) (q_dim q)
                  (map (map (tnode64 left length)) (q_nodes q))
                  (map (tweight64 length) (q_weights q))
                  (q_exact q)).

(** [np.prod] along an axis of an array of doubles (quadrature/__init__.py:253): the factors may be
    multiplied in any order and grouping, with partial products that start at one. *)
Inductive prod64 : list R -> R -> Prop :=
| prod64_nil : prod64 [] 1
| prod64_one x : prod64 [x] x
| prod64_mult l m x y : prod64 l x -> prod64 m y -> prod64 (l ++ m) (rnd64 (x * y))
| prod64_perm l m x : Permutation l m -> prod64 l x -> prod64 m x.
(** quadrature/__init__.py:233-271: TensorProductQuadrature as in [tp_quad], with rounded products of
    weights; nodes are copied. *)
Definition tp_quad64 (quads : list quad) (out : res quad) : Prop :=
  match tensor_product_pts (map quad_points quads) with
  | Err e => out = Err e
  | Ok x =>
      match tensor_product_pts (map weight_points quads) with
      | Err e => out = Err e
      | Ok ws =>
          exists w, Forall2 prod64 (pts_cols ws) w
            /\ out = (if negb (length w =? length (pts_cols x))%nat then Err AssertionE
                      else
                        let* ex :=
                          match quads with
                          | [] => Ok (Some NInf)
                          | _ => match py_min (map exact_to quads) with
                                 | Ok d => Ok (Some d)
                                 | Err AttributeError => Ok None
                                 | Err e => Err e
                                 end
                          end in
                        Ok (mkQuad false (pts_dim x) (pts_cols x) w ex))
      end
  end.
