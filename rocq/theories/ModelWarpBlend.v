(** * Warp-and-blend nodes: modepy/nodes.py:118-364

    A [(d, npts)] array is the list of its columns.  [eigh] and [roots_jacobi] are
    the external routines behind the Gauss-Lobatto nodes (ModelGauss.v).  Numbers are
    exact reals. *)
From Coq Require Import List Arith Bool ZArith Reals Lia.
From Verif Require Import Py PyToolsModel RSum RField ModelLinAlg ModelNd ModelShapes ModelSpaces ModelNodes ModelModes ModelBasis ModelQuad ModelGauss ModelMatrices ModelTools.
From Verif Require ModelFaces ModelGM.
Import ListNotations.
Local Open Scope R_scope.

(** [a[i]] for a [(d, npts)] array: its i-th row *)
Definition row (i : nat) (cols : list (list R)) : list R := map (fun c => nth i c 0) cols.
(** [np.linspace(-1, 1, n+1)] *)
Definition linspace_pm1 (n : nat) : list R := map (fun i => -1 + INR i * (2 / INR n)) (seq 0 (n + 1)).
(** [la.norm] of a vector and [v /= la.norm(v)] *)
Definition norm2 (v : list R) : R := sqrt (sumR (map (fun t => t * t) v)).
Definition normalise (v : list R) : list R := map (fun t => t / norm2 v) v.
Definition vdot (u v : list R) : R := sumR (ModelFaces.map2 Rmult u v).
Definition vscale (k : R) (v : list R) : list R := map (fun t => k * t) v.
(** [a + tangent[:, np.newaxis] * amount[np.newaxis, :]] *)
Definition add_along (cols : list (list R)) (tangent : list R) (amount : list R) : list (list R) :=
  map (fun '(c, a) => ModelFaces.vadd c (vscale a tangent)) (combine cols amount).

Section WarpBlend.
  Context (eigh : eigh_t) (roots_jacobi : roots_t).

  (** nodes.py:130-133: [basis = [partial(jacobi, 0, 0, n) for n in range(n + 1)]]; the
      nodes are one-dimensional arrays. *)
  Definition wf_basis_1d (n : nat) : list nodal_fn :=
    map (fun k => fun p : list R => Ok (jacobi Rops 0 0 k (nth 0 p 0))) (seq 0 (n + 1)).
  Definition flat_nodes (xs : list R) : list (list R) := map (fun x => [x]) xs.

  (** nodes.py:141-143, one entry; [zerof] is a boolean array, used as 0 and 1 *)
  Definition scale_warp (x w : R) : R :=
    let zerof := if Rlt_bool (Rabs x) (1 - / 10 ^ 10) then 1 else 0 in
    let sf := 1 - (zerof * x) ^ 2 in
    w / sf + w * (zerof - 1).

  (** nodes.py:120-146: [warp_factor] *)
  Definition warp_factor (n : nat) (output_nodes : list R) (scaled : bool) : res (list R) :=
    let* wn := lgl_nodes eigh roots_jacobi n None true in
    let warped_nodes := fst wn in
    let equi_nodes := linspace_pm1 n in
    let basis := wf_basis_1d n in
    let* Veq := vandermonde basis (flat_nodes equi_nodes) in
    let* Vout := vandermonde basis (flat_nodes output_nodes) in
    let* sol := np_solve (mT Veq) (mT Vout) in
    let eq_to_out := mT sol in
    let* w := mdot eq_to_out (col_mat (ModelFaces.map2 Rminus warped_nodes equi_nodes)) in
    let warp := map (fun i => ent w i 0%nat) (seq 0 (nrows w)) in
    if scaled then Ok (ModelFaces.map2 scale_warp output_nodes warp) else Ok warp.

  (** nodes.py:158: [i2, i3 = set(range(3)) - {i1}] (sets of small integers are iterated
      in increasing order) *)
  Definition other_two (i1 : nat) : nat * nat :=
    match i1 with 0 => (1, 2) | 1 => (0, 2) | _ => (0, 1) end%nat.

  (** nodes.py:157-173: the loop body *)
  Definition shift2_step (n : nat) (bary : list (list R)) (alpha : R) (result : list (list R)) (i1 : nat) : res (list (list R)) :=
    let '(i2, i3) := other_two i1 in
    let blend := map (fun b => 4 * nth i2 b 0 * nth i3 b 0) bary in
    let* warpf := warp_factor n (map (fun b => nth i2 b 0 - nth i3 b 0) bary) true in
    let warp := ModelFaces.map2 Rmult (ModelFaces.map2 Rmult blend warpf) (map (fun b => 1 + (alpha * nth i1 b 0) ^ 2) bary) in
    let* equi_vertices := equilateral_vertices 2 in
    let tangent := normalise (ModelFaces.vsub (nth i2 equi_vertices []) (nth i3 equi_vertices [])) in
    Ok (add_along result tangent warp).

  (** nodes.py:151-175: [_2d_equilateral_shift] *)
  Definition equilateral_shift_2d (n : nat) (bary : list (list R)) (alpha : R) : res (list (list R)) :=
    ModelGM.foldM (shift2_step n bary alpha) (seq 0 3) (map (fun _ => [0; 0]) bary).

  (** nodes.py:178-180 and 187-190.  For n = 0 Python would use the last entry. *)
  Definition alpha_opt_2d : list R :=
    [0; 0; 1.4152; 0.1001; 0.2751; 0.98; 1.0999; 1.2832; 1.3648; 1.4773; 1.4959; 1.5743; 1.577; 1.6223; 1.6258].
  Definition alpha_2d (n : nat) : R := match nth_error alpha_opt_2d (n - 1) with Some a => a | None => 5 / 3 end.

  (** nodes.py:192-197 and 232-237: the tuples to be used.  User-supplied tuples are
      assumed to have [d] entries. *)
  Definition wb_tuples (d n : nat) (node_tuples : option (list (list nat))) : res (list (list nat)) :=
    match node_tuples with
    | None => node_tuples_for_space (PN d n)
    | Some ts => if (length ts =? space_dim (PN d n))%nat then Ok ts else Err ValueError
    end.

  (** [a + b] for arrays of the same shape *)
  Definition cols_add (a b : list (list R)) : list (list R) := map (fun '(u, v) => ModelFaces.vadd u v) (combine a b).

  (** nodes.py:192-211 for a given [alpha]; n = 0 divides by zero (numpy warns and gives
      nan; warp_and_blend_nodes does not call this function then) *)
  Definition warp_and_blend_2d_with (alpha : R) (n : nat) (node_tuples : option (list (list nat))) : res points :=
    let* tuples := wb_tuples 2 n node_tuples in
    if (n =? 0)%nat then Err ZeroDivision else
    let unit_nodes := pts_cols (scale_tuples 2 n tuples) in
    let bary := map unit_to_barycentric unit_nodes in
    let* equi := mapM barycentric_to_equilateral bary in
    let* shift := equilateral_shift_2d n bary alpha in
    let* result := mapM equilateral_to_unit (cols_add equi shift) in
    Ok (mkPts 2 result).
  (** nodes.py:183-211 *)
  Definition warp_and_blend_nodes_2d (n : nat) (node_tuples : option (list (list nat))) : res points :=
    warp_and_blend_2d_with (alpha_2d n) n node_tuples.

  (** nodes.py:218-220 and 226-229 *)
  Definition alpha_opt_3d : list R :=
    [0; 0; 0; 0.1002; 1.1332; 1.5608; 1.3413; 1.2577; 1.1603; 1.10153; 0.608; 0.4523; 0.8856; 0.8717; 0.9655].
  Definition alpha_3d (n : nat) : R := match nth_error alpha_opt_3d (n - 1) with Some a => a | None => 1 end.

  (** nodes.py:253: [tol] *)
  Definition wb_tol : R := / 10 ^ 8.
  Definition Rgt_bool (x y : R) : bool := Rlt_bool y x.

  (** nodes.py:281-289, one node: the blending factor with l1 .. l4 *)
  Definition blend3 (alpha l1 l2 l3 l4 : R) : R :=
    let blend := l2 * l3 * l4 in
    let denom := (l2 + 1 / 2 * l1) * (l3 + 1 / 2 * l1) * (l4 + 1 / 2 * l1) in
    if Rgt_bool denom wb_tol then (1 + (alpha * l1) ^ 2) * blend / denom else blend.

  (** nodes.py:294, one node *)
  Definition is_face (l1 l2 l3 l4 : R) : bool :=
    Rlt_bool l1 wb_tol && (Rgt_bool l2 wb_tol || Rgt_bool l3 wb_tol || Rgt_bool l4 wb_tol).

  (** nodes.py:264-273: the two tangents of the face opposite to vertex [i1];
      [vi2, vi3, vi4 = ((i1 - i) % 4 for i in range(1, 4))] *)
  Definition face_tangents (vs : list (list R)) (i1 : nat) : list R * list R :=
    let v k := nth ((i1 + (4 - k)) mod 4)%nat vs [] in
    let tangent1 := normalise (ModelFaces.vsub (v 2%nat) (v 3%nat)) in
    let tangent2 := ModelFaces.vsub (v 1%nat) (v 2%nat) in
    let tangent2 := ModelFaces.vsub tangent2 (vscale (vdot tangent1 tangent2) tangent1) in
    (tangent1, normalise tangent2).

  (** nodes.py:294-300, one column: [shift[:, is_face] = warp1 * tangent1 + warp2 * tangent2] *)
  Definition assign_face (face : bool) (t1 t2 : list R) (warp12 : list R) (shift : list R) : list R :=
    if face then ModelFaces.vadd (vscale (nth 0 warp12 0) t1) (vscale (nth 1 warp12 0) t2) else shift.

  (** nodes.py:257-300: the loop body for [(i1, i2, i3, i4)] *)
  Definition shift3_step (n : nat) (bary : list (list R)) (alpha : R) (shift : list (list R)) (ii : nat * nat * nat * nat)
    : res (list (list R)) :=
    let '(i1, i2, i3, i4) := ii in
    let* equi_vertices := equilateral_vertices 3 in
    let '(tangent1, tangent2) := face_tangents equi_vertices i1 in
    let sub_bary := map (fun b => [nth i2 b 0; nth i3 b 0; nth i4 b 0]) bary in
    let* warp12 := equilateral_shift_2d n sub_bary alpha in
    let warp1 := row 0 warp12 in
    let warp2 := row 1 warp12 in
    let blend := map (fun b => blend3 alpha (nth i1 b 0) (nth i2 b 0) (nth i3 b 0) (nth i4 b 0)) bary in
    let shift := add_along shift tangent1 (ModelFaces.map2 Rmult blend warp1) in
    let shift := add_along shift tangent2 (ModelFaces.map2 Rmult blend warp2) in
    let face := map (fun b => is_face (nth i1 b 0) (nth i2 b 0) (nth i3 b 0) (nth i4 b 0)) bary in
    Ok (map (fun '(f, (w, s)) => assign_face f tangent1 tangent2 w s) (combine face (combine warp12 shift))).

  (** nodes.py:231-302 for a given [alpha]; n = 0 as in two dimensions *)
  Definition warp_and_blend_3d_with (alpha : R) (n : nat) (node_tuples : option (list (list nat))) : res points :=
    let* tuples := wb_tuples 3 n node_tuples in
    if (n =? 0)%nat then Err ZeroDivision else
    let unit_nodes := pts_cols (scale_tuples 3 n tuples) in
    let bary := map unit_to_barycentric unit_nodes in
    let* equi := mapM barycentric_to_equilateral bary in
    let* shift := ModelGM.foldM (shift3_step n bary alpha) [(0, 1, 2, 3); (1, 2, 3, 0); (2, 3, 0, 1); (3, 0, 1, 2)]%nat
                                (map (fun _ => [0; 0; 0]) equi) in
    let* result := mapM equilateral_to_unit (cols_add equi shift) in
    Ok (mkPts 3 result).
  (** nodes.py:223-302 *)
  Definition warp_and_blend_nodes_3d (n : nat) (node_tuples : option (list (list nat))) : res points :=
    warp_and_blend_3d_with (alpha_3d n) n node_tuples.

  (** nodes.py:347-353: [new_result[:, i] = result[:, nti]] for the one-tuples [(nti,)]; a
      tuple of another length cannot be unpacked *)
  Definition wb_pick (result : list (list R)) (nt : list nat) : res (list R) :=
    match nt with [nti] => getitem result nti | _ => Err ValueError end.

  (** nodes.py:309-364: [warp_and_blend_nodes] *)
  Definition warp_and_blend_nodes (dims n : nat) (node_tuples : option (list (list nat))) : res points :=
    if (n =? 0)%nat then Ok (mean_column (unit_vertices_for_simplex dims))
    else match dims with
    | 0%nat => Ok (mkPts 0 [[]])
    | 1%nat =>
        let* wn := lgl_nodes eigh roots_jacobi n None true in
        let result := flat_nodes (fst wn) in
        match node_tuples with
        | None => Ok (mkPts 1 result)
        | Some nts =>
            if negb (length nts =? n + 1)%nat then Err ValueError
            else let* new_result := mapM (wb_pick result) nts in Ok (mkPts 1 new_result)
        end
    | 2%nat => warp_and_blend_nodes_2d n node_tuples
    | 3%nat => warp_and_blend_nodes_3d n node_tuples
    | _ => Err NotImplementedE
    end.
End WarpBlend.
