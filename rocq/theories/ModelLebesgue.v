(** * Lebesgue constants: modepy/tools.py:314-404

    A node array of shape (dim, n) is given by [node_dim] and its columns.  For
    order 0 the code divides by zero ([equi_nodes] is NaN); orders are taken to be
    positive in all statements.  Plotting ([visualize=True]) is not modelled. *)
From Coq Require Import List Arith Bool ZArith Reals Lia.
From Verif Require Import Py PyToolsModel RSum RField ModelLinAlg ModelShapes ModelSpaces ModelNodes ModelModes ModelBasis
  ModelQuad ModelMatrices.
Import ListNotations.

(** tools.py:317: [huge_n]. *)
Definition lebesgue_huge_n (n : nat) (sh : shape) : nat := ((if shape_dim sh =? 2 then 30 else 10) * n)%nat.

(** tools.py:326: [equi_nodes]. *)
Definition lebesgue_equi_nodes (huge_n : nat) (tuples : list (list nat)) : list (list R) :=
  map (map (fun t => INR t / INR huge_n * 2 - 1)%R) tuples.

(** tools.py:314-337: [_evaluate_lebesgue_function]. *)
Definition evaluate_lebesgue_function (n node_dim : nat) (nodes : list (list R)) (sh : shape)
  : res (list R * (list (list nat) * list (list R))) :=
  let huge_n := lebesgue_huge_n n sh in
  let* space := space_for_shape sh (OInt n) in
  let* huge_space := space_for_shape sh (OInt huge_n) in
  let* b := basis_for_space space sh in
  let* equi_node_tuples := node_tuples_for_space huge_space in
  let equi_nodes := lebesgue_equi_nodes huge_n equi_node_tuples in
  if negb (spatial_dim huge_space =? node_dim)%nat then Err AssertionE
  else
    let* fs := functions Rops b in
    let* vdm := vandermonde fs nodes in
    let* eq_vdm := vandermonde fs equi_nodes in
    let* x := np_solve (mT vdm) (mT eq_vdm) in
    let eq_to_out := mT x in
    let lebesgue_worst :=
      map (fun i => rsum (fun j => Rabs (ent eq_to_out i j)) (ncols eq_to_out)) (seq 0 (nrows eq_to_out)) in
    Ok (lebesgue_worst, (equi_node_tuples, equi_nodes)).

(** [np.max] *)
Definition np_max (l : list R) : res R :=
  match l with [] => Err ValueError | a :: l' => Ok (fold_left Rmax l' a) end.

(** tools.py:340-404: [estimate_lebesgue_constant] with [visualize=False]. *)
Definition estimate_lebesgue_constant (n node_dim : nat) (nodes : list (list R)) (sh : shape) : res R :=
  if negb (shape_dim sh =? node_dim)%nat then Err ValueError
  else
    let* r := evaluate_lebesgue_function n node_dim nodes sh in
    np_max (fst r).
