(** * Matrices for discretisation: modepy/matrices.py

    Functions are pointwise ([list R -> res R], [list R -> res (list R)]); a
    [(dim, npts)] node array is the list of its columns.  Errors raised by a
    function are propagated; with no nodes at all no function is evaluated.  The
    branches that only change dtype or memory order are not modelled; the
    deprecated call of [vandermonde] with tuple-returning functions (:109-114) is in ModelVandermonde.v. *)
From Coq Require Import List Arith Bool ZArith Reals Lia.
From Verif Require Import Py PyToolsModel RSum RField ModelLinAlg ModelModes ModelBasis ModelQuad.
Import ListNotations.

Notation nodal_fn := (list R -> res R).
Notation nodal_grad := (list R -> res (list R)).

(** The array with the given columns. *)
Definition mat_of_cols (m n : nat) (cols : list (list R)) : nmat :=
  mkMat m n (fun i j => nth i (nth j cols []) 0%R).

(** matrices.py:87-123: [vandermonde]. *)
Definition vandermonde (functions : list nodal_fn) (nodes : list (list R)) : res nmat :=
  let nnodes := length nodes in
  let nfunctions := length functions in
  let* cols := mapM (fun f => mapM f nodes) functions in
  Ok (mat_of_cols nnodes nfunctions cols).

(** matrices.py:126-168: [multi_vandermonde].  [vals] is the list of the values
    [f(nodes)] of all functions, each given as the list (over nodes) of tuples.
    The number of matrices is the number of components returned by the first
    function; a later function returning more components raises IndexError, one
    returning fewer leaves entries uninitialised ([junk]).  With no nodes the
    model returns no matrices. *)
Definition n_components (tuples : list (list R)) : nat :=
  match tuples with [] => 0 | t :: _ => length t end.
Definition multi_vandermonde (junk : R) (functions : list nodal_grad) (nodes : list (list R)) : res (list nmat) :=
  match functions with
  | [] => Err ValueError
  | _ =>
      let* vals := mapM (fun f => mapM f nodes) functions in
      let ncomp := match vals with [] => 0 | v :: _ => n_components v end in
      if existsb (fun v => ncomp <? n_components v)%nat vals then Err IndexError
      else Ok (map (fun c => mkMat (length nodes) (length functions)
                               (fun i j => nth c (nth i (nth j vals []) []) junk))
                   (seq 0 ncomp))
  end.

(** matrices.py:171-223: [resampling_matrix]. *)
Definition resampling_matrix (basis : list nodal_fn) (new_nodes old_nodes : list (list R))
           (least_squares_ok : bool) : res nmat :=
  let* vdm_old := vandermonde basis old_nodes in
  let* vdm_new := vandermonde basis new_nodes in
  let n_modes_in := length basis in
  let n_modes_out := ncols vdm_new in
  let resample := mslice n_modes_out n_modes_in (meye (Nat.max n_modes_in n_modes_out)) in
  let* resample_vdm_new := mdot vdm_new resample in
  if (nrows vdm_old =? ncols vdm_old)%nat then
    let* x := np_solve (mT vdm_old) (mT resample_vdm_new) in Ok (mT x)
  else if least_squares_ok then mdot resample_vdm_new (np_pinv vdm_old)
  else Err RuntimeE.

(** matrices.py:226-264: [differentiation_matrices]. *)
Definition differentiation_matrices (junk : R) (basis : list nodal_fn) (grad_basis : list nodal_grad)
           (nodes : list (list R)) (from_nodes : option (list (list R))) : res (list nmat) :=
  let from := match from_nodes with None => nodes | Some f => f end in
  if negb (length basis =? length from)%nat then Err ValueError
  else
    let* vdm := vandermonde basis from in
    let* grad_vdms := multi_vandermonde junk grad_basis nodes in
    mapM (fun gv => let* x := np_solve (mT vdm) (mT gv) in Ok (mT x)) grad_vdms.

(** matrices.py:267-277: [diff_matrices]. *)
Definition diff_matrices (junk : R) (b : basis) (nodes : list (list R))
           (from_nodes : option (list (list R))) : res (list nmat) :=
  let* fs := functions Rops b in
  let* gs := gradients Rops b in
  differentiation_matrices junk fs gs nodes from_nodes.

(** matrices.py:280-303: [diff_matrix_permutation] (for a nonnegative axis). *)
Definition set_nth {A} (i : nat) (v : A) (l : list A) : list A :=
  firstn i l ++ v :: skipn (S i) l.
Definition swap_entries (ref_axis : nat) (nt : list nat) : res (list nat) :=
  let* a := getitem nt 0 in
  let* b := getitem nt ref_axis in
  Ok (set_nth ref_axis a (set_nth 0 b nt)).
Definition diff_matrix_permutation (node_tuples : list (list nat)) (ref_axis : nat) : res (list nat) :=
  if (ref_axis =? 0)%nat then Ok (seq 0 (length node_tuples))
  else mapM (fun nt => let* swapped := swap_entries ref_axis nt in dict_index node_tuples swapped)
            node_tuples.

(** matrices.py:306-338: [inverse_mass_matrix]; the first argument is a Basis
    ([inl]) or (deprecated) a sequence of functions ([inr]). *)
Definition inverse_mass_matrix (b : basis + list nodal_fn) (nodes : list (list R)) : res nmat :=
  let* fs :=
    match b with
    | inl b' =>
        match orthonormality_weight b' with
        | Err BasisNotOrthonormalE => Err NotImplementedE
        | Err e => Err e
        | Ok w => if Req_EM_T w 1 then functions Rops b' else Err NotImplementedE
        end
    | inr fs => Ok fs
    end in
  let* vdm := vandermonde fs nodes in
  mdot vdm (mT vdm).

(** matrices.py:341-357: [mass_matrix]. *)
Definition mass_matrix (b : basis + list nodal_fn) (nodes : list (list R)) : res nmat :=
  let* im := inverse_mass_matrix b nodes in np_inv im.

(** [A * w]: broadcasting a vector over the rows (each column j is multiplied by
    w_j).  A one-element vector or a one-column matrix also broadcasts in
    numpy; lengths are required to agree here (they do in both uses, for rules
    with as many weights as nodes). *)
Definition mscale_cols (A : nmat) (w : list R) : res nmat :=
  if (ncols A =? length w)%nat
  then Ok (mkMat (nrows A) (ncols A) (fun i j => ent A i j * nth j w 0)%R) else Err ValueError.

(** matrices.py:360-398: [nodal_quadrature_test_matrix].  [nodes.shape[1]] raises
    IndexError for one-dimensional node arrays (:386). *)
Definition nodal_quadrature_test_matrix (q : quad) (test_functions nodal_interp_functions : list nodal_fn)
           (nodes : option (list (list R))) (test_function_node_map : option (list R -> res (list R)))
  : res nmat :=
  let* nds := match nodes with
              | Some n => Ok n
              | None => if q_flat q then Err IndexError else Ok (q_nodes q)
              end in
  if negb (length nodal_interp_functions =? length nds)%nat then Err ValueError
  else
    let* vdm := vandermonde nodal_interp_functions nds in
    let* test_nodes := match test_function_node_map with
                       | Some m => mapM m (q_nodes q)
                       | None => Ok (q_nodes q)
                       end in
    let* tv := vandermonde test_functions test_nodes in
    let* modal_mat := mscale_cols (mT tv) (q_weights q) in
    np_solve (mT vdm) modal_mat.

(** [np.einsum("qi,qj,q->ij", A, B, w)] *)
Definition einsum3 (A B : nmat) (w : list R) : res nmat :=
  if (nrows A =? nrows B)%nat && (nrows A =? length w)%nat
  then Ok (mkMat (ncols A) (ncols B)
             (fun i j => rsum (fun k => ent A k i * ent B k j * nth k w 0)%R (nrows A)))
  else Err ValueError.

(** matrices.py:401-459: [nodal_quadrature_bilinear_form_matrix]. *)
Definition nodal_quadrature_bilinear_form_matrix (q : quad)
           (test_functions trial_functions interp_test interp_trial : list nodal_fn)
           (input_nodes : list (list R)) (output_nodes : option (list (list R)))
           (test_function_node_map : option (list R -> res (list R))) : res nmat :=
  let out := match output_nodes with None => input_nodes | Some o => o end in
  if negb (length interp_test =? length out)%nat then Err ValueError
  else if negb (length interp_trial =? length input_nodes)%nat then Err ValueError
  else
    let* mapped := match test_function_node_map with
                   | Some m => mapM m (q_nodes q)
                   | None => Ok (q_nodes q)
                   end in
    let* a := vandermonde test_functions mapped in
    let* b := vandermonde trial_functions (q_nodes q) in
    let* modal_operator := einsum3 a b (q_weights q) in
    let* input_vdm := vandermonde interp_trial input_nodes in
    let* output_vdm := vandermonde interp_test out in
    let* inv := np_inv input_vdm in
    let* rhs := mdot modal_operator inv in
    np_solve (mT output_vdm) rhs.

(** matrices.py:462-480: [spectral_diag_nodal_mass_matrix] for a
    TensorProductQuadrature given by its factors; [None] stands for any other
    kind of rule. *)
Definition spectral_diag_nodal_mass_matrix (factors : option (list quad)) : res (list R) :=
  match factors with
  | None => Err ValueError
  | Some qs => if forallb (fun q => q_dim q =? 1)%nat qs
               then let* q := tp_quad qs in Ok (q_weights q)
               else Err ValueError
  end.
