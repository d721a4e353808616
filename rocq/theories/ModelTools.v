(** * Monomials, affine maps and simplex coordinates: modepy/tools.py:80-247

    Arrays of points are modelled by their columns; the functions below act on one
    column. *)
From Coq Require Import List Arith Bool ZArith Reals.
From mathcomp Require matrix.
From Verif Require Import RField Py RSum ModelLinAlg ModelShapes ModelNd ModelNodes.
Import ListNotations.
Local Open Scope R_scope.

(** tools.py:80-97: class Monomial *)
Record monomial := mkMono { m_exponents : list nat; m_factor : R }.
(** tools.py:99-106; [x[i]] raises IndexError *)
Definition m_call (m : monomial) (xi : list R) : res R :=
  let x := map (fun t => (t + 1) / 2) xi in
  let* ps := mapM (fun ie => let* t := getitem x (fst ie) in Ok (t ^ snd ie))
                  (combine (seq 0 (length (m_exponents m))) (m_exponents m)) in
  Ok (m_factor m * fold_left Rmult ps 1).
(** tools.py:108-116 *)
Definition m_simplex_integral (m : monomial) : R :=
  let n := length (m_exponents m) in
  let k := sum_nat (m_exponents m) in
  m_factor m * 2 ^ n * INR (fold_left Nat.mul (map fact (m_exponents m)) 1%nat) / INR (fact (n + k)).
(** tools.py:118-124 *)
Definition m_hypercube_integral (m : monomial) : R :=
  fold_left (fun integral n => integral * 1 / (INR n + 1)) (m_exponents m) 1.
(** [l[i] = v] for an index in range *)
Fixpoint list_set {X} (l : list X) (i : nat) (v : X) : list X :=
  match l, i with
  | [], _ => []
  | _ :: l', O => v :: l'
  | a :: l', S i' => a :: list_set l' i' v
  end.
(** Python's index of a sequence of length [n]: negative ones count from the end. *)
Definition py_index (n : nat) (i : Z) : res nat :=
  if ((0 <=? i) && (i <? Z.of_nat n))%Z then Ok (Z.to_nat i)
  else if ((- Z.of_nat n <=? i) && (i <? 0))%Z then Ok (Z.to_nat (i + Z.of_nat n))
  else Err IndexError.
(** tools.py:126-133 *)
Definition m_diff (m : monomial) (coordinate : Z) : res monomial :=
  let* i := py_index (length (m_exponents m)) coordinate in
  let orig_exp := List.nth i (m_exponents m) 0%nat in
  if (orig_exp =? 0)%nat then Ok (mkMono (m_exponents m) 0)
  else Ok (mkMono (list_set (m_exponents m) i (orig_exp - 1)%nat) (m_factor m * INR orig_exp)).

(** tools.py:153-159: class AffineMap *)
Record affine := mkAffine { am_a : nmat; am_b : list R }.
Definition nmat_of_rows (rows : list (list R)) : nmat :=
  mkMat (length rows) (length (hd [] rows)) (fun i j => List.nth j (List.nth i rows []) 0).
(** tools.py:161-169, for one column; [b] has one entry per row (broadcasting of other
    lengths is not modelled) *)
Definition am_call (m : affine) (x : list R) : res (list R) :=
  if negb (ncols (am_a m) =? length x)%nat then Err ValueError
  else if negb (length (am_b m) =? nrows (am_a m))%nat then Err ValueError
  else Ok (map (fun i => rsum (fun j => ent (am_a m) i j * List.nth j x 0) (length x) + List.nth i (am_b m) 0) (seq 0 (nrows (am_a m)))).
(** tools.py:171-174; [la.det] *)
Definition np_det (A : nmat) : res R :=
  if (nrows A =? ncols A)%nat then Ok (matrix.determinant (toM (nrows A) (nrows A) (ent A))) else Err LinAlgError.
Definition am_jacobian (m : affine) : res R := np_det (am_a m).
(** tools.py:176-180 *)
Definition col_mat (b : list R) : nmat := mkMat (length b) 1 (fun i _ => List.nth i b 0).
Definition am_inverse (m : affine) : res affine :=
  let* ai := np_inv (am_a m) in
  let* s := np_solve (am_a m) (col_mat (am_b m)) in
  Ok (mkAffine ai (map (fun i => - ent s i 0%nat) (seq 0 (nrows s)))).

(** tools.py:187-198 *)
Definition equilateral_to_unit_map (d : nat) : res affine :=
  match d with
  | 1%nat => Ok (mkAffine (nmat_of_rows [[1]]) [0])
  | 2%nat => Ok (mkAffine (nmat_of_rows [[1; -1 / sqrt 3]; [0; 2 / sqrt 3]]) [-1 / 3; -1 / 3])
  | 3%nat => Ok (mkAffine (nmat_of_rows [[1; -1 / sqrt 3; -1 / sqrt 6]; [0; 2 / sqrt 3; -1 / sqrt 6]; [0; 0; sqrt 6 / 2]]) [-1 / 2; -1 / 2; -1 / 2])
  | _ => Err KeyError
  end.
(** tools.py:201-202 *)
Definition equilateral_to_unit (equi : list R) : res (list R) :=
  let* m := equilateral_to_unit_map (length equi) in am_call m equi.
(** [V @ x] for the columns [vs] of a [(d, n)] array *)
Definition mat_vec (d : nat) (vs : list (list R)) (x : list R) : list R :=
  map (fun i => rsum (fun j => List.nth i (List.nth j vs []) 0 * List.nth j x 0) (length vs)) (seq 0 d).
(** tools.py:205-212; an empty argument asks for a (-1, 0) array *)
Definition barycentric_to_unit (bary : list R) : res (list R) :=
  if (length bary =? 0)%nat then Err ValueError
  else let dims := (length bary - 1)%nat in
       Ok (mat_vec dims (pts_cols (unit_vertices_for_simplex dims)) bary).
(** tools.py:215-222 *)
Definition unit_to_barycentric (unit : list R) : list R :=
  let last_bary := map (fun t => 1 / 2 * (t + 1)) unit in
  let first_bary := 1 - fold_left Rplus last_bary 0 in
  first_bary :: last_bary.
(** tools.py:226-242 *)
Definition equilateral_vertices (d : nat) : res (list (list R)) :=
  match d with
  | 1%nat => Ok [[-1]; [1]]
  | 2%nat => Ok [[-1; -1 / sqrt 3]; [1; -1 / sqrt 3]; [0; 2 / sqrt 3]]
  | 3%nat => Ok [[-1; -1 / sqrt 3; -1 / sqrt 6]; [1; -1 / sqrt 3; -1 / sqrt 6]; [0; 2 / sqrt 3; -1 / sqrt 6]; [0; 0; 3 / sqrt 6]]
  | _ => Err KeyError
  end.
(** tools.py:245-247; [V.T @ bary], the rows of [V] being the vertices (an empty
    argument looks up the key -1) *)
Definition barycentric_to_equilateral (bary : list R) : res (list R) :=
  if (length bary =? 0)%nat then Err KeyError
  else let dims := (length bary - 1)%nat in
       let* vs := equilateral_vertices dims in
       Ok (mat_vec dims vs bary).
