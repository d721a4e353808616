(** * Grundmann-Moeller rules: modepy/quadrature/grundmann_moeller.py *)
From Coq Require Import List Arith Bool ZArith Reals Lia.
From Verif Require Import Py PyToolsModel ModelShapes ModelSpaces ModelNodes ModelModes ModelQuad.
Import ListNotations.

(** grundmann_moeller.py:51-58: the loop of [_extended_euclidean]; Python's
    [divmod] rounds towards minus infinity, like [Z.div] and [Z.modulo]. *)
Fixpoint euclid_loop (fuel : nat) (q r : Z) (big_q big_r : Z * Z) : res (Z * Z * Z) :=
  if (r =? 0)%Z then Ok (q, fst big_q, snd big_q)
  else match fuel with
       | 0 => Err OutOfFuel
       | S fuel' =>
           let quot := (q / r)%Z in
           let t := (q mod r)%Z in
           let T := (fst big_q - quot * fst big_r, snd big_q - quot * snd big_r)%Z in
           euclid_loop fuel' r t big_r T
       end.
Definition euclid_body (q r : Z) : res (Z * Z * Z) :=
  euclid_loop (Z.abs_nat r) q r (1, 0)%Z (0, 1)%Z.
(** grundmann_moeller.py:38-58: [_extended_euclidean].  The recursive call has
    its arguments in the order for which it does not recurse again. *)
Definition extended_euclidean (q r : Z) : res (Z * Z * Z) :=
  if (Z.abs q <? Z.abs r)%Z then
    let* pab := euclid_body r q in
    let '(p, a, b) := pab in Ok (p, b, a)
  else euclid_body q r.
(** grundmann_moeller.py:61-62 *)
Definition gm_gcd (q r : Z) : res Z := let* pab := extended_euclidean q r in Ok (fst (fst pab)).
(** grundmann_moeller.py:65-68; [//] is floor division *)
Definition simplify_fraction (f : Z * Z) : res (Z * Z) :=
  let '(a, b) := f in
  let* gcd := gm_gcd a b in
  if (gcd =? 0)%Z then Err ZeroDivision else Ok (a / gcd, b / gcd)%Z.

(** The insertion-ordered dictionary [points_to_weights]. *)
Definition frac_eqb (p q : Z * Z) : bool := (fst p =? fst q)%Z && (snd p =? snd q)%Z.
Fixpoint key_eqb (s t : list (Z * Z)) : bool :=
  match s, t with
  | [], [] => true
  | a :: s', b :: t' => frac_eqb a b && key_eqb s' t'
  | _, _ => false
  end.
(** [d[key] = d.get(key, 0) + weight] *)
Fixpoint dict_add (key : list (Z * Z)) (weight : R) (d : list (list (Z * Z) * R)) : list (list (Z * Z) * R) :=
  match d with
  | [] => [(key, 0 + weight)%R]
  | (k, w) :: d' => if key_eqb k key then (k, w + weight)%R :: d' else (k, w) :: dict_add key weight d'
  end.

(** grundmann_moeller.py:116-119 *)
Definition gm_weight (s n i : nat) : R :=
  let d := (2 * s + 1)%nat in
  ((-1) ^ i * / 2 ^ (2 * s) * INR (d + n - 2 * i) ^ d / INR (fact i) / INR (fact (d + n - i)))%R.
(** grundmann_moeller.py:123-126, for one [i] and one [beta] *)
Definition gm_point (s n i : nat) (beta : list nat) : res (list (Z * Z)) :=
  let denominator := Z.of_nat (2 * s + 1 + n - 2 * i) in
  mapM (fun beta_i => simplify_fraction (2 * Z.of_nat beta_i + 1, denominator)%Z) beta.
Definition gm_betas (s n i : nat) : list (list nat) :=
  flat_map gen_unique_permutations (gdnts (n + 1) (s - i) None).
Fixpoint foldM {A B} (f : A -> B -> res A) (l : list B) (a : A) : res A :=
  match l with [] => Ok a | b :: l' => let* a' := f a b in foldM f l' a' end.
(** grundmann_moeller.py:113-129 *)
Definition gm_points_to_weights (s n : nat) : res (list (list (Z * Z) * R)) :=
  foldM (fun d i =>
    foldM (fun d beta =>
      let* point := gm_point s n i beta in
      Ok (dict_add point (gm_weight s n i) d)) (gm_betas s n i) d) (seq 0 (s + 1)) [].

(** grundmann_moeller.py:133-135; [wandering_element(n, landscape=-1, wanderer=1)]
    is the 0/1 version scaled by t -> 2 t - 1 *)
Definition gm_vertices (n : nat) : list (list R) :=
  repeat (-1)%R n :: map (map (fun t => 2 * INR t - 1)%R) (wandering_element n).
(** grundmann_moeller.py:142-143: the [reduce] *)
Definition vec_add (u v : list R) : list R := map (fun p => fst p + snd p)%R (combine u v).
Definition gm_node (n : nat) (p : list (Z * Z)) : res (list R) :=
  let* terms := zipM (fun ab v => Ok (map (fun c => IZR (fst ab) / IZR (snd ab) * c)%R v)) p (gm_vertices n) in
  match terms with
  | [] => Err TypeError
  | t :: ts => Ok (fold_left vec_add ts t)
  end.
(** grundmann_moeller.py:90-147: [GrundmannMoellerSimplexQuadrature(order, dimension)]
    for a nonnegative order. *)
Definition gm_quad (order dimension : nat) : res quad :=
  let s := order in
  let n := dimension in
  let d := (2 * s + 1)%nat in
  if (dimension =? 0)%nat then Ok (mkQuad false 0 [[]] [1%R] (Some NInf))
  else
    let* ptw := gm_points_to_weights s n in
    let* nodes := mapM (fun pw => gm_node n (fst pw)) ptw in
    Ok (mkQuad false n nodes (map (fun pw => 2 ^ n * snd pw)%R ptw) (Some (degree d))).
