(** * Edge-clustered and Gauss(-Lobatto) tensor product node sets: modepy/nodes.py *)
From Coq Require Import List Arith Bool Reals.
From Verif Require Import Py PyToolsModel ModelNd ModelShapes ModelSpaces ModelNodes ModelQuad ModelGauss ModelWarpBlend.
Import ListNotations.
Local Open Scope R_scope.

Section EdgeNodes.
  Context (eigh : eigh_t) (roots_jacobi : roots_t).

  (** modepy/nodes.py:466-468, 512-522, 585-598: [edge_clustered_nodes_for_space] *)
  Fixpoint edge_clustered_nodes_for_space (space : fspace) (sh : shape) {struct space} : res points :=
    match space with
    | PN d n =>
        match sh with
        | Simplex sd =>
            if negb (d =? sd)%nat then Err ValueError
            else if (d <=? 3)%nat then warp_and_blend_nodes eigh roots_jacobi d n None
            else equidistant_nodes d n None
        | TPShape _ _ _ => Err NotImplementedE
        end
    | TPSpace _ bases =>
        match sh with
        | Simplex _ => Err NotImplementedE
        | TPShape _ sd shbases =>
            if negb (spatial_dim space =? sd)%nat then Err ValueError
            else let* sets := zipM (fun b s => edge_clustered_nodes_for_space b s) bases shbases in
                 tensor_product_pts sets
        end
    end.

  (** [x.reshape(1, -1)] *)
  Definition as_row {A} (a : ndarray A) : res (ndarray A) := np_reshapeC a [1; prod_nat (nd_shape a)]%nat.

  (** modepy/nodes.py:428-439: [legendre_gauss_tensor_product_nodes]; [force_dim_axis] makes the
      nodes of the rule an array of shape (1, n+1) *)
  Definition legendre_gauss_tensor_product_nodes (dims n : nat) : res points :=
    let* gl_quad := legendre_gauss eigh roots_jacobi n None true in
    let* gl_nodes := as_row (pts_to_nd (mkPts (q_dim gl_quad) (q_nodes gl_quad))) in
    let* a := tensor_product_nodes (fun _ => 0) (inl dims) (Some gl_nodes) in
    Ok (pts_of_nd a).

  (** the array returned by [legendre_gauss_lobatto_nodes]: flat or with a leading axis *)
  Definition lgl_array (l : list R * bool) : ndarray R :=
    if snd l then mkNd [length (fst l)] (fun idx => match idx with [k] => nth k (fst l) 0 | _ => 0 end)
    else pts_to_nd (mkPts 1 (map (fun x => [x]) (fst l))).
  (** modepy/nodes.py:442-449: [legendre_gauss_lobatto_tensor_product_nodes] *)
  Definition legendre_gauss_lobatto_tensor_product_nodes (dims n : nat) : res points :=
    let* l := lgl_nodes eigh roots_jacobi n None true in
    let* a := tensor_product_nodes (fun _ => 0) (inl dims) (Some (lgl_array l)) in
    Ok (pts_of_nd a).
End EdgeNodes.
