(** * Modal decay: modepy/modal_decay.py

    Arrays of shape (num_elements, num_modes) are lists of rows. *)
From Coq Require Import List Arith Bool ZArith Reals Lia.
From Verif Require Import Py PyToolsModel RSum RField ModelLinAlg ModelModes ModelBasis ModelQuad ModelMatrices.
Import ListNotations.

(** [max(...)] of ints; ValueError on an empty sequence. *)
Definition py_max_nat (l : list nat) : res nat :=
  match l with [] => Err ValueError | a :: l' => Ok (fold_left Nat.max l' a) end.

(** modal_decay.py:63-92: [degree_vector] and its two implementations (a mode id
    of a simplex basis is the tuple of [simplex_mode_tuples], see [mode_ids]). *)
Fixpoint degree_vector (b : basis) : res (list nat) :=
  match b with
  | SimplexONB d n | SimplexMonomial d n => Ok (map sum_nat (simplex_mode_tuples d n))
  | TPBasis bases _ =>
      let* degree_vectors := mapM degree_vector bases in
      let* counts := mapM nfunctions bases in
      mapM (fun mid_tuple =>
              let* degs := zipM (fun ov mode_id => getitem ov mode_id) degree_vectors mid_tuple in
              py_max_nat degs)
           (mode_index_tuples counts)
  end.

(** Boolean row indexing [A[mask]]; IndexError if the mask has another length. *)
Definition mrows (A : nmat) (mask : list bool) : res nmat :=
  if (length mask =? nrows A)%nat then
    let idxs := filter (fun i => nth i mask false) (seq 0 (nrows A)) in
    Ok (mkMat (length idxs) (ncols A) (fun r j => ent A (nth r idxs 0%nat) j))
  else Err IndexError.

(** modal_decay.py:95-116: [interp_error_coefficient_estimator_matrix]. *)
Definition interp_error_coefficient_estimator_matrix (unit_nodes : list (list R)) (n_tail_orders : nat)
           (b : basis) : res nmat :=
  let* fs := functions Rops b in
  let* vdm := vandermonde fs unit_nodes in
  let* vdm_inv := np_inv vdm in
  let* degree_vec := degree_vector b in
  let* max_order := py_max_nat degree_vec in
  mrows vdm_inv (map (fun d => (Z.of_nat max_order - Z.of_nat n_tail_orders <? Z.of_nat d)%Z) degree_vec).

(** modal_decay.py:119-142: [simplex_interp_error_coefficient_estimator_matrix]
    (deprecated); [dim] is the first extent of [unit_nodes]. *)
Definition simplex_interp_error_coefficient_estimator_matrix (dim : nat) (unit_nodes : list (list R))
           (order n_tail_orders : nat) : res nmat :=
  interp_error_coefficient_estimator_matrix unit_nodes n_tail_orders (SimplexONB dim order).

(** modal_decay.py:145-156: [make_mode_number_vector].  [np.zeros] of a negative
    length raises ValueError. *)
Definition make_mode_number_vector (mode_order_tuples : list (list nat)) (ignored_modes : nat) : res (list nat) :=
  if (length mode_order_tuples <? ignored_modes)%nat then Err ValueError
  else Ok (map sum_nat (skipn ignored_modes mode_order_tuples)).

(** modal_decay.py:159-170: [create_decay_baseline] (for n >= 0; a zero mode
    number gives the entry 1).  An empty vector stays empty. *)
Definition sum_R (l : list R) : R := fold_right Rplus 0%R l.
Definition create_decay_baseline (mode_number_vector : list nat) (n : nat) : list R :=
  let modal_coefficients :=
    map (fun k => if (k =? 0)%nat then 1%R else (/ INR k ^ n)%R) mode_number_vector in
  let norm := sqrt (sum_R (map (fun x => (x * x)%R) modal_coefficients)) in
  map (fun x => (x / norm)%R) modal_coefficients.

(** modal_decay.py:173-185: [get_decay_fit_matrix].  For [ignored_modes = 0] the
    first mode number must be 0 (the assertion [not isfinite(log 0)]), and its
    logarithm is replaced by 0.  A zero mode number anywhere else leaves -inf in
    the matrix given to [pinv], which raises LinAlgError. *)
Definition get_decay_fit_matrix (mode_number_vector : list nat) (ignored_modes : nat)
           (weight_vector : list R) : res nmat :=
  let k i := nth i mode_number_vector 0%nat in
  let w i := nth i weight_vector 0%R in
  let n := length mode_number_vector in
  if negb (length weight_vector =? n)%nat then Err ValueError
  else if ((ignored_modes =? 0) && (n =? 0))%nat then Err IndexError
  else if ((ignored_modes =? 0) && negb (k 0%nat =? 0))%nat then Err AssertionE
  else if existsb (fun i => (k i =? 0)%nat && negb ((ignored_modes =? 0) && (i =? 0)))%nat (seq 0 n)
       then Err LinAlgError
  else Ok (np_pinv (mkMat n 2 (fun i j =>
         match j with
         | 0%nat => w i
         | _ => if ((ignored_modes =? 0) && (i =? 0))%nat then 0%R else (w i * ln (INR (k i)))%R
         end))).

(** modal_decay.py:188-202: [skyline_pessimize]; [my_modes[-2]] raises IndexError
    for rows of fewer than two modes. *)
Fixpoint sky_from (cur_val : R) (rev_modes : list R) : list R :=
  match rev_modes with
  | [] => []
  | m :: rest => let cur := Rmax cur_val m in cur :: sky_from cur rest
  end.
Definition skyline_row (my_modes : list R) : res (list R) :=
  match rev my_modes with
  | a :: b :: _ => Ok (rev (sky_from (Rmax a b) (rev my_modes)))
  | _ => Err IndexError
  end.
Definition skyline_pessimize (modal_values : list (list R)) : res (list (list R)) :=
  mapM skyline_row modal_values.

(** modal_decay.py:205-264: [fit_modal_decay] for one element: [None] when a
    logarithm of zero makes the values non-finite.  All rows must have
    [ignored_modes] more entries than there are mode numbers (length-one
    broadcasting of numpy is not modelled); the [if 0:] block is not modelled. *)
Definition log_modal_coeffs (mode_number_vector : list nat) (n ignored_modes : nat) (coeffs : list R)
  : res (option (list R)) :=
  let* coeffs_squared := skyline_row (map (fun x => (x * x)%R) coeffs) in
  let el_norm_squared := sum_R coeffs_squared in
  let baseline := create_decay_baseline mode_number_vector n in
  let tail := skipn ignored_modes coeffs_squared in
  if negb (length tail =? length baseline)%nat then Err ValueError
  else
    let args := map (fun p => (fst p + (snd p * el_norm_squared) * (snd p * el_norm_squared))%R)
                    (combine tail baseline) in
    if forallb (fun a => if Rlt_dec 0 a then true else false) args
    then Ok (Some (map (fun a => (ln a / 2)%R) args)) else Ok None.
Definition fit_row (fit_mat : nmat) (vals : list R) : R * R :=
  let fit i := rsum (fun k => (ent fit_mat i k * nth k vals 0)%R) (length vals) in
  (fit 1%nat, exp (fit 0%nat)).
Definition fit_modal_decay (coeffs : list (list R)) (dims n ignored_modes : nat)
  : res (list (option (R * R))) :=
  let* mode_number_vector := make_mode_number_vector (gnitsam n dims) ignored_modes in
  let weight_vector := map (fun _ => 1%R) mode_number_vector in
  let* fit_mat := get_decay_fit_matrix mode_number_vector ignored_modes weight_vector in
  mapM (fun row =>
          let* lg := log_modal_coeffs mode_number_vector n ignored_modes row in
          Ok (match lg with None => None | Some vals => Some (fit_row fit_mat vals) end)) coeffs.

(** modal_decay.py:267-296: [estimate_relative_expansion_residual] for one
    element; [None] stands for NaN or an undefined value: the square root of a
    negative number or of -inf ([2*exponent+1 >= 0]), or zero coefficients. *)
Definition residual_of (coeffs : list R) (n : nat) (fit : option (R * R)) : option R :=
  match fit with
  | None => None
  | Some (exponent, const) =>
      let e1 := (2 * exponent + 1)%R in
      if Rlt_dec e1 0 then
        let l2_norm := sqrt (sum_R (map (fun x => (x * x)%R) coeffs)) in
        if Req_EM_T l2_norm 0 then None
        else
          let residual := (const * sqrt (- Rpower (INR (n + 1)) e1 / e1))%R in
          let result := (residual / l2_norm)%R in
          Some (if Rlt_dec 1 result then 0%R else result)
      else None
  end.
Definition estimate_relative_expansion_residual (coeffs : list (list R)) (dims n ignored_modes : nat)
  : res (list (option R)) :=
  let* fits := fit_modal_decay coeffs dims n ignored_modes in
  Ok (map (fun p => residual_of (fst p) n (snd p)) (combine coeffs fits)).
