(** * Clenshaw-Curtis and Fejer rules: modepy/quadrature/clenshaw_curtis.py

    Numbers are exact reals; a complex number is the pair of its parts.
    [np.fft.ifft] is given by the formula of its documentation.  Orders are Python
    ints, that is, elements of [Z].  Deprecation warnings are not modelled. *)
From Coq Require Import List Arith Bool ZArith QArith Reals.
From Verif Require Import Py RSum ModelNd ModelShapes ModelNodes ModelModes ModelQuad ModelGauss.
Import ListNotations.
Local Open Scope R_scope.

(** numpy.fft.ifft: a_k = 1/n sum_j v_j exp(2 pi i j k / n) *)
Definition ifft (v : list (R * R)) : list (R * R) :=
  let n := length v in
  let th (j k : nat) := 2 * PI * INR j * INR k / INR n in
  map (fun k =>
    (rsum (fun j => fst (nth j v (0, 0)) * cos (th j k) - snd (nth j v (0, 0)) * sin (th j k)) n / INR n,
     rsum (fun j => fst (nth j v (0, 0)) * sin (th j k) + snd (nth j v (0, 0)) * cos (th j k)) n / INR n)) (seq 0 n).
(** [assert np.allclose(w.imag, 0)] and [w.real] *)
Definition checked_real (w : list (R * R)) : res (list R) :=
  if forallb (fun c => if Rle_dec (Rabs (snd c)) (/ 10 ^ 8) then true else false) w then Ok (map fst w) else Err AssertionE.
(** [np.arange(1, n, 2)] *)
Definition odd_numbers (n : nat) : list R := map (fun i => INR (2 * i + 1)) (seq 0 (n / 2)).
(** [w[:-1]] and [w[-1:0:-1]] combined entry by entry *)
Definition fold_ends {A} (f : A -> A -> A) (w : list A) : list A :=
  map (fun p => f (fst p) (snd p)) (combine (removelast w) (rev (tl w))).
(** [g0[i] = g0[i] + c]; the indices used exist *)
Definition add_at (i : nat) (c : R) (l : list R) : list R :=
  map (fun j => if (j =? i)%nat then nth j l 0 + c else nth j l 0) (seq 0 (length l)).
(** clenshaw_curtis.py:48-57 and :134-143, up to the [ifft] *)
Definition cc_vector (n : nat) : list R :=
  let N := odd_numbers n in
  let r := length N in
  let m := (n - r)%nat in
  let w := map (fun k => 2 / k / (k - 2)) N ++ match N with [] => [] | _ => [1 / last N 0] end ++ repeat 0 m in
  fold_ends (fun a b => 0 - a - b) w.
(** clenshaw_curtis.py:58-61 *)
Definition cc_g0 (n : nat) : list R :=
  let r := length (odd_numbers n) in
  let m := (n - r)%nat in
  map (fun g => g / (INR n ^ 2 - 1 + INR (n mod 2))) (add_at m (INR n) (add_at r (INR n) (repeat (-1) n))).
(** clenshaw_curtis.py:40-66 *)
Definition cc_nodes_weights (n : Z) : res (list R * list R) :=
  if (n <? 1)%Z then Err ValueError
  else if (n =? 1)%Z then Ok ([-1; 1], [1; 1])
  else
    let n := Z.to_nat n in
    let x := map (fun k => cos (INR k * PI / INR n)) (seq 0 (n + 1)) in
    let w := map (fun p => fst p + snd p) (combine (cc_vector n) (cc_g0 n)) in
    let* wr := checked_real (ifft (map (fun a => (a, 0)) w)) in
    Ok (x, wr ++ firstn 1 wr).
(** clenshaw_curtis.py:69-98 *)
Definition clenshaw_curtis (N : Z) (force_dim_axis : bool) : res quad :=
  let* xw := cc_nodes_weights N in
  Ok (mkQuad (negb force_dim_axis) 1 (map (fun x => [x]) (fst xw)) (snd xw) (Some (NFin (inject_Z N)))).

(** clenshaw_curtis.py:105-126 *)
Definition fejer1_nodes_weights (n : Z) : res (list R * list R) :=
  if (n <? 1)%Z then Err ValueError
  else
    let n := Z.to_nat n in
    let r := length (odd_numbers n) in
    let m := (n - r)%nat in
    let x := map (fun k => cos ((INR k + 1 / 2) * PI / INR n)) (seq 0 n) in
    let w := map (fun K => let c := 2 / (1 - 4 * INR K ^ 2) in (c * cos (PI * INR K / INR n), c * sin (PI * INR K / INR n))) (seq 0 m)
             ++ repeat (0, 0) (r + 1) in
    let w := fold_ends (fun a b => (fst a + fst b, snd a - snd b)) w in
    let* wr := checked_real (ifft w) in
    Ok (x, wr).
(** clenshaw_curtis.py:129-147 *)
Definition fejer2_nodes_weights (n : Z) : res (list R * list R) :=
  if (n <? 2)%Z then Err ValueError
  else
    let n := Z.to_nat n in
    let x := map (fun k => cos (INR k * PI / INR n)) (seq 1 (n - 1)) in
    let w := tl (ifft (map (fun a => (a, 0)) (cc_vector n))) in
    let* wr := checked_real w in
    Ok (x, wr).
(** clenshaw_curtis.py:150-188 *)
Definition fejer (N kind : Z) (force_dim_axis : bool) : res quad :=
  let* xw := if (kind =? 1)%Z then fejer1_nodes_weights N
             else if (kind =? 2)%Z then fejer2_nodes_weights N
             else Err ValueError in
  Ok (mkQuad (negb force_dim_axis) 1 (map (fun x => [x]) (fst xw)) (snd xw) None).
