(** * Node sets: modepy/nodes.py (warp-and-blend nodes are in ModelWarpBlend.v)
    and modepy/shapes.py vertices.

    Points with real coordinates; a [(dim, npts)] float array is either an
    [ndarray R] (in [tensor_product_nodes], where the memory layout matters) or
    the pair of its number of rows and the list of its columns ([points]). *)
From Coq Require Import List Arith Bool Reals Lia.
From Verif Require Import Py PyToolsModel ModelNd ModelShapes ModelSpaces.
Import ListNotations.

Record points := mkPts { pts_dim : nat; pts_cols : list (list R) }.

(** modepy/nodes.py:456-458, 488-493, 551-566: [node_tuples_for_space]. *)
Fixpoint node_tuples_for_space (space : fspace) : res (list (list nat)) :=
  match space with
  | PN d n => Ok (gnitsam n d)
  | TPSpace _ bases =>
      let* tuples_for_space := mapM node_tuples_for_space bases in
      let space_index_tuples :=
        map (@rev nat) (gnitb (map (@length _) (rev tuples_for_space))) in
      mapM (fun tp =>
              let* parts := zipM (fun ts j => getitem ts j) tuples_for_space tp in
              Ok (concat_tuples parts))
           space_index_tuples
  end.

(** modepy/nodes.py:373-425: [tensor_product_nodes].  [junk] is the initial
    content of the [np.empty] array at :412.  The dtype computation (:410) is
    not modelled. *)
Section TensorProductNodes.
  Context {A : Type} (junk : list nat -> A).

  (** nodes.py:407 (one nodeset): [n.reshape(1, -1) if n.ndim == 1 else n]. *)
  Definition tpn_as2d (n : ndarray A) : res (ndarray A) :=
    match nd_shape n with
    | [m] => np_reshapeC n [1; m]
    | _ => Ok n
    end.

  (** nodes.py:414-420: the loop filling [result]. *)
  Fixpoint tpn_fill (nsets i d : nat) (nodesets : list (ndarray A)) (result : ndarray A)
    : res (ndarray A) :=
    match nodesets with
    | [] => Ok result
    | nodes :: rest =>
        match nd_shape nodes with
        | [d_i; n_i] =>
            let bcast_shape := d_i :: repeat 1 i ++ [n_i] ++ repeat 1 (nsets - i - 1) in
            let* val := np_reshapeC nodes bcast_shape in
            let* result' := np_assign_rows result d d_i val in
            tpn_fill nsets (S i) (d + d_i) rest result'
        | _ => Err ValueError
        end
    end.

  (** nodes.py:408, 411: [n.shape[0]] and [n.shape[-1]]. *)
  Definition shape_first (n : ndarray A) : res nat :=
    match nd_shape n with [] => Err IndexError | d :: _ => Ok d end.
  Definition shape_last (n : ndarray A) : res nat :=
    match rev (nd_shape n) with [] => Err IndexError | d :: _ => Ok d end.

  (** nodes.py:411-425 for given [nodesets] and [dims]. *)
  Definition tpn_core (nodesets : list (ndarray A)) (dims : nat) : res (ndarray A) :=
    let* result_shape := mapM shape_last nodesets in
    let* result := tpn_fill (length nodesets) 0 0 nodesets
                            (np_empty junk (dims :: result_shape)) in
    if dims =? 0 then np_reshapeC result [dims; 1]
    else np_reshapeF result [dims; prod_nat (nd_shape result) / dims].

  (** nodes.py:395-408: dispatch on the kind of first argument ([inl]: an
      int, [inr]: a sequence of arrays). *)
  Definition tensor_product_nodes (dims_or_nodes : nat + list (ndarray A))
             (nodes_1d : option (ndarray A)) : res (ndarray A) :=
    match dims_or_nodes with
    | inl dims =>
        match nodes_1d with
        | None => Err ValueError
        | Some n1 =>
            let* row := np_reshapeC n1 [1; prod_nat (nd_shape n1)] in
            tpn_core (repeat row dims) dims
        end
    | inr nodes =>
        match nodes_1d with
        | Some _ => Err ValueError
        | None =>
            let* nodesets := mapM tpn_as2d nodes in
            let* ds := mapM shape_first nodesets in
            tpn_core nodesets (sum_nat ds)
        end
    end.
End TensorProductNodes.

(** [tensor_product_nodes] on a sequence of two-dimensional float arrays. *)
Definition pts_to_nd (p : points) : ndarray R := nd_of_columns 0%R (pts_dim p) (pts_cols p).
Definition pts_of_nd (a : ndarray R) : points :=
  mkPts (hd 0 (nd_shape a)) (nd_columns a).
Definition tensor_product_pts (sets : list points) : res points :=
  let* a := tensor_product_nodes (fun _ => 0%R) (inr (map pts_to_nd sets)) None in
  Ok (pts_of_nd a).

Local Open Scope R_scope.

(** modepy/shapes.py:422-430: [unit_vertices_for_simplex]. *)
Definition unit_vertices_for_simplex (d : nat) : points :=
  mkPts d (map (fun j => map (fun i => if (j =? i + 1)%nat then 1 else -1) (seq 0 d))
               (seq 0 (d + 1))).

(** modepy/shapes.py:258-263, 390-395: [unit_vertices_for_shape]. *)
Fixpoint unit_vertices_for_shape (s : shape) : res points :=
  match s with
  | Simplex d => Ok (unit_vertices_for_simplex d)
  | TPShape _ _ bases =>
      let* vs := mapM unit_vertices_for_shape bases in
      tensor_product_pts vs
  end.

(** [np.mean(pts, axis=1).reshape(-1, 1)]. *)
Definition sumR (l : list R) : R := fold_right Rplus 0 l.
Definition mean_column (p : points) : points :=
  mkPts (pts_dim p)
        [map (fun i => sumR (map (fun c => nth i c 0) (pts_cols p)) / INR (length (pts_cols p)))
             (seq 0 (pts_dim p))].

(** [(np.array(node_tuples, dtype=np.float64)/n*2 - 1).T] *)
Definition scale_tuples (d n : nat) (tuples : list (list nat)) : points :=
  mkPts d (map (map (fun t => INR t / INR n * 2 - 1)) tuples).

(** modepy/nodes.py:84-113: [equidistant_nodes].  User-supplied tuples are
    assumed to have [dims] entries each (otherwise numpy raises or the result
    has another number of rows). *)
Definition equidistant_nodes (dims n : nat) (node_tuples : option (list (list nat)))
  : res points :=
  let space := PN dims n in
  let* tuples :=
    match node_tuples with
    | None => node_tuples_for_space space
    | Some ts => if (length ts =? space_dim space)%nat then Ok ts else Err ValueError
    end in
  if (n =? 0)%nat then Ok (mean_column (unit_vertices_for_simplex dims))
  else Ok (scale_tuples dims n tuples).

(** modepy/nodes.py:461-463, 496-509, 569-582: [equispaced_nodes_for_space]. *)
Fixpoint equispaced_nodes_for_space (space : fspace) (sh : shape) {struct space} : res points :=
  match space with
  | PN d n =>
      match sh with
      | Simplex sd =>
          if negb (d =? sd)%nat then Err ValueError
          else if (n =? 0)%nat then Ok (mean_column (unit_vertices_for_simplex sd))
          else let* tuples := node_tuples_for_space space in
               Ok (scale_tuples d n tuples)
      | TPShape _ _ _ => Err NotImplementedE
      end
  | TPSpace _ bases =>
      match sh with
      | Simplex _ => Err NotImplementedE
      | TPShape _ sd shbases =>
          if negb (spatial_dim space =? sd)%nat then Err ValueError
          else let* sets := zipM (fun b s => equispaced_nodes_for_space b s) bases shbases in
               tensor_product_pts sets
      end
  end.

(** modepy/nodes.py:525-544, 601-616: [random_nodes_for_shape].  The generator
    is an arbitrary state machine: [uniform st dim n] returns the columns of
    [rng.uniform(-1.0, 1.0, size=(dim, n))] and the next state.  The
    unbounded [while True] loop is cut off by [fuel] (OutOfFuel). *)
Section RandomNodes.
  Context {St : Type} (uniform : St -> nat -> nat -> list (list R) * St).

  (** nodes.py:537 [new_nodes[:, new_nodes.sum(axis=0) < 2-shape.dim]]. *)
  Definition accept_simplex (d : nat) (col : list R) : bool :=
    if Rlt_dec (sumR col) (2 - INR d) then true else false.

  Fixpoint random_simplex_loop (fuel : nat) (d nnodes : nat) (obtained : list (list R)) (st : St)
    : res (list (list R) * St) :=
    match fuel with
    | O => Err OutOfFuel
    | S fuel' =>
        let '(new_nodes, st') := uniform st d (nnodes - length obtained) in
        let obtained' := obtained ++ filter (accept_simplex d) new_nodes in
        if (length obtained' =? nnodes)%nat then Ok (obtained', st')
        else random_simplex_loop fuel' d nnodes obtained' st'
    end.

  (** nodes.py:610-614: rows of the bases are stacked. *)
  Fixpoint stack_cols (a b : list (list R)) : list (list R) :=
    match a, b with
    | x :: a', y :: b' => (x ++ y) :: stack_cols a' b'
    | _, _ => []
    end.

  Fixpoint random_nodes_for_shape (fuel : nat) (sh : shape) (nnodes : nat) (st : St) {struct sh}
    : res (list (list R) * St) :=
    match sh with
    | Simplex d => random_simplex_loop fuel d nnodes [] st
    | TPShape _ _ bases =>
        (fix go (bs : list shape) (acc : list (list R)) (st : St) : res (list (list R) * St) :=
           match bs with
           | [] => Ok (acc, st)
           | b :: bs' =>
               let* r := random_nodes_for_shape fuel b nnodes st in
               go bs' (stack_cols acc (fst r)) (snd r)
           end) bases (repeat [] nnodes) st
    end.
End RandomNodes.
