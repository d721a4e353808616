(** * Deprecated quadrature mass matrices: modepy/matrices.py:483-601

    The calls of [warnings.warn] are not modelled.  As in ModelMatrices, functions are pointwise and an
    assignment or product of vectors of different lengths is a ValueError (numpy also broadcasts vectors
    with one entry; rules with as many weights as nodes never do). *)
From Coq Require Import List Arith Bool ZArith Reals Lia.
From Verif Require Import Py PyToolsModel RSum RField ModelLinAlg ModelModes ModelBasis ModelQuad ModelMatrices ModelNd ModelShapes ModelSpaces ModelNodes ModelFaces.
Import ListNotations.

(** The array with the given rows. *)
Definition mat_of_rows (m n : nat) (rows : list (list R)) : nmat :=
  mkMat m n (fun i j => nth j (nth i rows []) 0%R).
(** Elementwise product of two vectors. *)
Definition vmul (u v : list R) : res (list R) :=
  if (length u =? length v)%nat then Ok (map2 Rmult u v) else Err ValueError.
(** [u @ v] *)
Definition vdot (u v : list R) : res R :=
  if (length u =? length v)%nat then Ok (dotR u v) else Err ValueError.

(** matrices.py:485-497: [modal_quad_mass_matrix]: one row per test function. *)
Definition modal_quad_mass_matrix (q : quad) (test_functions : list nodal_fn) : res nmat :=
  let* rows := mapM (fun f => let* vals := mapM f (q_nodes q) in vmul vals (q_weights q)) test_functions in
  Ok (mat_of_rows (length test_functions) (length (q_weights q)) rows).

(** matrices.py:500-517: [nodal_quad_mass_matrix]; [nodes.shape[1]] raises IndexError for flat nodes. *)
Definition nodal_quad_mass_matrix (q : quad) (test_functions : list nodal_fn) (nodes : option (list (list R))) : res nmat :=
  let* nds := match nodes with
              | Some n => Ok n
              | None => if q_flat q then Err IndexError else Ok (q_nodes q)
              end in
  if negb (length test_functions =? length nds)%nat then Err ValueError
  else
    let* vdm := vandermonde test_functions nds in
    let* modal := modal_quad_mass_matrix q test_functions in
    np_solve (mT vdm) modal.

(** [face.map_to_volume(face_quad.nodes)] (shapes.py:433-444, 516-534): the subscripts of einsum refuse a
    one-dimensional array. *)
Definition face_quad_nodes (f : face) (q : quad) : res (list (list R)) :=
  if q_flat q then Err ValueError else mapM (map_to_volume f) (q_nodes q).

(** matrices.py:520-537: [modal_mass_matrix_for_face]: entry (i, j) is
    [(test_vals*trial_f(face_quad.nodes)) @ face_quad.weights]. *)
Definition modal_mass_matrix_for_face (f : face) (q : quad) (trial_functions test_functions : list nodal_fn) : res nmat :=
  let* mapped_nodes := face_quad_nodes f q in
  let* rows := mapM (fun test_f =>
      let* test_vals := mapM test_f mapped_nodes in
      mapM (fun trial_f =>
        let* trial_vals := mapM trial_f (q_nodes q) in
        let* prod := vmul test_vals trial_vals in
        vdot prod (q_weights q)) trial_functions) test_functions in
  Ok (mat_of_rows (length test_functions) (length trial_functions) rows).

(** matrices.py:540-563: [nodal_mass_matrix_for_face]; the numbers of volume nodes and test functions are
    compared only by [la.solve]. *)
Definition nodal_mass_matrix_for_face (f : face) (q : quad) (trial_functions test_functions : list nodal_fn)
           (volume_nodes face_nodes : list (list R)) : res nmat :=
  let* face_vdm := vandermonde trial_functions face_nodes in
  let* vol_vdm := vandermonde test_functions volume_nodes in
  if negb (nrows face_vdm =? ncols face_vdm)%nat then Err ValueError
  else
    let* face_vdm_inv := np_inv face_vdm in
    let* modal_fmm := modal_mass_matrix_for_face f q trial_functions test_functions in
    let* rhs := mdot modal_fmm face_vdm_inv in
    np_solve (mT vol_vdm) rhs.

(** matrices.py:566-580: [modal_quad_mass_matrix_for_face] *)
Definition modal_quad_mass_matrix_for_face (f : face) (q : quad) (test_functions : list nodal_fn) : res nmat :=
  let* mapped_nodes := face_quad_nodes f q in
  let* rows := mapM (fun test_f => let* vals := mapM test_f mapped_nodes in vmul vals (q_weights q)) test_functions in
  Ok (mat_of_rows (length test_functions) (length (q_weights q)) rows).

(** matrices.py:583-599: [nodal_quad_mass_matrix_for_face] *)
Definition nodal_quad_mass_matrix_for_face (f : face) (q : quad) (test_functions : list nodal_fn)
           (volume_nodes : list (list R)) : res nmat :=
  if negb (length test_functions =? length volume_nodes)%nat then Err ValueError
  else
    let* vol_vdm := vandermonde test_functions volume_nodes in
    let* modal := modal_quad_mass_matrix_for_face f q test_functions in
    np_solve (mT vol_vdm) modal.
