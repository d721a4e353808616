(** * Transplanted rules: modepy/quadrature/transplanted.py

    Numbers are exact reals (infinities and NaN, which the code refuses, do not exist
    here).  Arrays of nodes are lists.  scipy's [ellipk], [ellipj] and the solution of
    the equation for the strip map's parameter are arguments. *)
From Coq Require Import List Arith Bool ZArith QArith Reals.
From Verif Require Import Py RSum ModelNd ModelShapes ModelNodes ModelModes ModelQuad ModelGauss.
Import ListNotations.
Local Open Scope R_scope.

(** A transplant map: what it returns for an array of nodes, and whether it is the object
    [map_identity] (transplanted.py:276). *)
Record tmap := mkTmap { tm_identity : bool; tm_fun : list R -> res (list R * list R) }.

(** transplanted.py:43-49 *)
Definition map_identity : tmap := mkTmap true (fun s => Ok (s, map (fun _ => 1) s)).

(** transplanted.py:61-65, one iteration *)
Definition arcsin_step (coeffs : list R) (k : nat) : list R :=
  let km1 := INR k - 1 in
  coeffs ++ [nth (k - 1) coeffs 0 * (2 * km1 + 1) ^ 2 / (2 * INR k * (2 * km1 + 3))].
(** transplanted.py:52-67 *)
Definition arcsin_taylor_coefficients (max_odd_degree : Z) : res (list R) :=
  if ((max_odd_degree <? 1) || (max_odd_degree mod 2 =? 0))%Z then Err ValueError
  else
    let nterms := Z.to_nat ((max_odd_degree + 1) / 2) in
    Ok (fold_left arcsin_step (seq 1 (nterms - 1)) [1]).
(** Python's [sum] *)
Definition py_sum (l : list R) : R := fold_left Rplus l 0.
(** transplanted.py:86-89 for one node: the sums [(g, gp)] *)
Definition sausage_sums (coeffs : list R) (s : R) : R * R :=
  fold_left (fun st kc =>
      let '(g, gp) := st in
      let '(k, c_k) := kc in
      let power := (2 * k + 1)%nat in
      (g + c_k * s ^ power, gp + c_k * INR power * s ^ (power - 1)))
    (combine (seq 0 (length coeffs)) coeffs) (0, 0).
(** transplanted.py:70-91 *)
Definition map_sausage (degree : Z) : tmap := mkTmap false (fun s =>
  let* coeffs := arcsin_taylor_coefficients degree in
  let denom := py_sum coeffs in
  Ok (map (fun x => fst (sausage_sums coeffs x) / denom) s, map (fun x => snd (sausage_sums coeffs x) / denom) s)).

(** transplanted.py:125-133: the parameter *)
Definition kte_alpha (rho : R) (alpha : option R) : res R :=
  let* alpha := match alpha with
                | None => if Rle_dec rho 1 then Err ValueError else Ok (2 / (rho + 1 / rho))
                | Some a => Ok a
                end in
  if (if Rlt_dec 0 alpha then if Rlt_dec alpha 1 then true else false else false) then Ok alpha else Err ValueError.
(** transplanted.py:94-140 *)
Definition map_kosloff_tal_ezer (rho : R) (alpha : option R) : tmap := mkTmap false (fun s =>
  let* alpha := kte_alpha rho alpha in
  let denom := asin alpha in
  Ok (map (fun x => asin (alpha * x) / denom) s, map (fun x => alpha / (denom * sqrt (1 - alpha ^ 2 * x ^ 2))) s)).

(** [np.arctanh] *)
Definition artanh (x : R) : R := ln ((1 + x) / (1 - x)) / 2.
Section Strip.
  (** scipy.special.ellipk(m); scipy.special.ellipj(u, m) without the amplitude; the result of
      [_strip_map_parameter_m(rho)] for rho > 1 (transplanted.py:143-173). *)
  Context (ellipk : R -> R) (ellipj : R -> R -> R * R * R) (strip_parameter : R -> res R).
  (** transplanted.py:176-228 *)
  Definition map_strip (rho : R) : tmap := mkTmap false (fun s =>
    if existsb (fun x => if Rle_dec 1 (Rabs x) then true else false) s then Err ValueError
    else
      let* m := if Rle_dec rho 1 then Err ValueError else strip_parameter rho in
      let m4 := sqrt (sqrt m) in
      let k := ellipk m in
      let omega x := 2 * k * asin x / PI in
      let sn x := fst (fst (ellipj (omega x) m)) in
      let cn x := snd (fst (ellipj (omega x) m)) in
      let dn x := snd (ellipj (omega x) m) in
      Ok (map (fun x => artanh (m4 * sn x) / artanh m4) s,
          map (fun x => 2 * k * m4 * cn x * dn x
                        / (PI * sqrt (1 - x ^ 2) * (1 - sqrt m * sn x ^ 2) * artanh m4)) s)).
End Strip.

(** transplanted.py:231-282.  The nodes of a flat rule are its singleton columns; a [(1, n)]
    array has the same columns.  [weights * jacobian] with different lengths is an error (numpy's
    broadcasting of arrays of length one is not modelled). *)
Definition transplanted_1d (q : quad) (m : tmap) : res quad :=
  if negb (q_flat q || (q_dim q =? 1)%nat) then Err ValueError
  else
    let nodes_1d := map (fun c => nth 0 c 0) (q_nodes q) in
    let* gj := tm_fun m nodes_1d in
    let '(mapped_nodes, jacobian) := gj in
    if negb (length (q_weights q) =? length jacobian)%nat then Err ValueError
    else
      let mapped_weights := map (fun p => fst p * snd p) (combine (q_weights q) jacobian) in
      let exact := if tm_identity m
                   then match exact_to q with Ok d => Some d | Err _ => None end
                   else None in
      Ok (mkQuad (q_flat q) 1 (map (fun x => [x]) mapped_nodes) mapped_weights exact).
(** transplanted.py:285-302 *)
Definition transplanted_legendre_gauss (eigh : eigh_t) (roots_jacobi : roots_t) (n : nat) (m : tmap) (be : option backend) (force_dim_axis : bool) : res quad :=
  let* q := legendre_gauss eigh roots_jacobi n be force_dim_axis in
  transplanted_1d q m.
