(** * Constructing quadrature rules: modepy/quadrature/construction.py:291-452

    Functions are pointwise; an [(ndim, nnodes)] array of nodes is its number of rows
    together with the list of its columns, an [(nnodes,)] array a list of numbers (a node is
    then the one-element list).  Real scalars.  [__debug__] is true (Python is not run
    with -O). *)
From Coq Require Import Reals.
From Coq Require Import List Arith Bool.
From Verif Require Import Py RSum RField ModelLinAlg ModelModes ModelBasis ModelQuad ModelMatrices.
Import ListNotations.
Local Open Scope nat_scope.

(** construction.py:293, 357: [nodes], "An array with shape (ndim, nnodes) or (nnodes,)". *)
Inductive node_array : Type :=
| NodesFlat (xs : list R)
| NodesNd (ndim : nat) (cols : list (list R)).
(** The nodes as points; what [vandermonde] iterates over (matrices.py:99). *)
Definition points (a : node_array) : list (list R) :=
  match a with NodesFlat xs => map (fun x => [x]) xs | NodesNd _ cols => cols end.
(** [len(nodes)]: the first entry of the shape. *)
Definition py_len (a : node_array) : nat := match a with NodesFlat xs => length xs | NodesNd ndim _ => ndim end.

(** External: [la.lstsq(A, b)[0]], the least-squares solution of minimal norm (exact reals, no
    cut-off of small singular values); LinAlgError if the lengths differ. *)
Definition np_lstsq (A : nmat) (b : list R) : res (list R) :=
  if length b =? nrows A
  then Ok (map (fun j => rsum (fun k => ent (np_pinv A) j k * nth k b 0)%R (nrows A)) (seq 0 (ncols A)))
  else Err LinAlgError.

(** construction.py:291-330: the weights, and whether the warning "Underdetermined quadrature
    system" is issued. *)
Definition find_weights (integrands : list nodal_fn) (nodes : node_array) (reference_integrals : list R) : res (bool * list R) :=
  if negb (length reference_integrals =? length integrands) then Err ValueError
  else
    let warned := length reference_integrals <? py_len nodes in
    let* vdm := vandermonde integrands (points nodes) in
    let* w := np_lstsq (mT vdm) reference_integrals in
    Ok (warned, w).

(** [A @ w] for a vector *)
Definition np_matvec (A : nmat) (w : list R) : res (list R) :=
  if ncols A =? length w
  then Ok (map (fun i => rsum (fun k => ent A i k * nth k w 0)%R (ncols A)) (seq 0 (nrows A)))
  else Err ValueError.
(** [a - b] for two vectors, with numpy's broadcasting of one-element vectors. *)
Definition np_vsub (a b : list R) : res (list R) :=
  if length a =? length b then Ok (map (fun i => nth i a 0 - nth i b 0)%R (seq 0 (length a)))
  else if length b =? 1 then Ok (map (fun i => nth i a 0 - nth 0 b 0)%R (seq 0 (length a)))
  else if length a =? 1 then Ok (map (fun i => nth 0 a 0 - nth i b 0)%R (seq 0 (length b)))
  else Err ValueError.
(** [np.hstack] of two-dimensional arrays: equal numbers of rows required; no array: ValueError. *)
Definition hstack2 (A B : nmat) : res nmat :=
  if nrows A =? nrows B
  then Ok (mkMat (nrows A) (ncols A + ncols B) (fun i j => if j <? ncols A then ent A i j else ent B i (j - ncols A)))
  else Err ValueError.
Fixpoint hstack (As : list nmat) : res nmat :=
  match As with
  | [] => Err ValueError
  | [A] => Ok A
  | A :: As' => let* B := hstack As' in hstack2 A B
  end.

(** construction.py:333-352 *)
Record qrj := mkQRJ { residual : list R; dresid_dweights : nmat; dresid_dnodes : nmat }.

(** construction.py:355-429.  [ndim, _nnodes = nodes.shape] raises ValueError for a one-dimensional
    array (:402). *)
Definition quad_residual_and_jacobian (nodes : node_array) (weights : list R) (integrands : list nodal_fn)
           (integrand_derivatives : list (list nodal_fn)) (reference_integrals : list R) : res qrj :=
  let nintegrands := length integrands in
  match nodes with
  | NodesFlat _ => Err ValueError
  | NodesNd ndim cols =>
      if negb (length integrand_derivatives =? ndim) then Err ValueError
      else if existsb (fun ax => negb (length ax =? nintegrands)) integrand_derivatives then Err ValueError
      else
        let* vdm := vandermonde integrands cols in
        let* vw := np_matvec (mT vdm) weights in
        let* r := np_vsub vw reference_integrals in
        let* blocks := mapM (fun ax => let* v := vandermonde ax cols in mscale_cols (mT v) weights) integrand_derivatives in
        let* dn := hstack blocks in
        Ok (mkQRJ r (mT vdm) dn)
  end.

(** [v.reshape(-1, n)]: ValueError for n = 0 or if n does not divide the size. *)
Definition np_rows (n : nat) (v : list R) : res (list (list R)) :=
  if n =? 0 then Err ValueError
  else if length v mod n =? 0
  then Ok (map (fun a => firstn n (skipn (a * n) v)) (seq 0 (length v / n)))
  else Err ValueError.
(** construction.py:431-452 *)
Definition quad_gauss_newton_increment (q : qrj) : res (list R * list (list R)) :=
  let* full_jacobian := hstack [dresid_dweights q; dresid_dnodes q] in
  let* sol := np_lstsq full_jacobian (residual q) in
  let full_increment := map Ropp sol in
  let nnodes := ncols (dresid_dweights q) in
  let* rows := np_rows nnodes (skipn nnodes full_increment) in
  Ok (firstn nnodes full_increment, rows).
