(** * Bases: modepy/modes.py:576-727 (tensor-product function objects) and
    :770-1149 (basis classes and their construction from spaces). *)
From Coq Require Import List Arith Bool ZArith Reals Lia.
From Verif Require Import Py PyToolsModel ModelShapes ModelSpaces ModelModes.
Import ListNotations.

(** Basis objects: modes.py:880-893 SimplexBasis with its subclasses :896
    _SimplexONB and :927 _SimplexMonomialBasis (fields _dim, _order), and
    :976-991 TensorProductBasis (fields _bases, _dims_per_basis). *)
Inductive basis : Type :=
| SimplexONB (dim order : nat)
| SimplexMonomial (dim order : nat)
| TPBasis (bases : list basis) (dims_per_basis : list nat).

(** modes.py:979-991: TensorProductBasis.__init__. *)
Definition mk_TensorProductBasis (bases : list basis) (dims_per_basis : option (list nat)) : basis :=
  TPBasis bases (match dims_per_basis with
                 | None => repeat 1 (length bases)
                 | Some ds => ds
                 end).

(** Mode identifiers are ints or (nested) tuples of ints. *)
Inductive mode_id : Type :=
| MInt (n : nat)
| MTuple (items : list mode_id).

(** modes.py:888-893: SimplexBasis.mode_ids as integer tuples. *)
Definition simplex_mode_tuples (dim order : nat) : list (list nat) := gnitsam order dim.
Definition mid_of_tuple (t : list nat) : mode_id := MTuple (map MInt t).

Section Functions.
  Context {T : Type} (o : vops T).

  (** A callable basis function and a callable gradient, on the coordinates of
      one point. *)
  Definition bfun := list T -> res T.
  Definition bgrad := list T -> res (list T).

  (** modes.py:619-638: _TensorProductBasisFunction.__call__.  The loop slices
      the coordinates ([x[n:n + d]]) and multiplies; a length mismatch of
      [functions] and [dims_per_function] is the AssertionError of
      [__post_init__] (:612-613), raised here at call time. *)
  Fixpoint tp_call_loop (x : list T) (n : nat) (dims : list nat) (functions : list bfun)
           (result : T) : res T :=
    match dims, functions with
    | [], [] => Ok result
    | d :: dims', f :: functions' =>
        let* v := f (firstn d (skipn n x)) in
        tp_call_loop x (n + d) dims' functions' (vmul o result v)
    | _, _ => Err AssertionE
    end.
  Definition tp_call (dims : list nat) (functions : list bfun) : bfun := fun x =>
    if negb (length x =? sum_nat dims) then Err AssertionE
    else tp_call_loop x 0 dims functions (vc o 1%R).

  (** modes.py:702-727: _TensorProductGradientBasisFunction.__call__.  Each entry
      of a derivative tuple is either a basis function or a gradient. *)
  Definition dfun := (bfun + bgrad)%type.

  (** [for j, comp in enumerate(components): result[n + j] *= comp] *)
  Fixpoint imul_head (comps result : list T) : res (list T) :=
    match comps, result with
    | [], _ => Ok result
    | c :: comps', r :: result' =>
        let* rest := imul_head comps' result' in Ok (vmul o r c :: rest)
    | _ :: _, [] => Err IndexError
    end.
  Fixpoint imul_from (n : nat) (comps result : list T) : res (list T) :=
    match n with
    | O => imul_head comps result
    | S n' => match result with
              | [] => match comps with [] => Ok [] | _ => Err IndexError end
              | r :: result' => let* rest := imul_from n' comps result' in Ok (r :: rest)
              end
    end.

  (** modes.py:708-724: the inner loop for one [derivative] tuple; [nders] is
      [dims_per_function[ider]]. *)
  Fixpoint tp_grad_inner (x : list T) (nders n f : nat) (dims : list nat) (derivative : list dfun)
           (result : list T) : res (list T) :=
    match dims, derivative with
    | [], [] => Ok result
    | iaxis :: dims', fn :: derivative' =>
        let arg := firstn iaxis (skipn f x) in
        let* components :=
          match fn with
          | inr g => let* c := g arg in
                     if length c =? nders then Ok c else Err AssertionE
          | inl h => let* c := h arg in Ok (repeat c nders)
          end in
        let* result' := imul_from n components result in
        tp_grad_inner x nders n (f + iaxis) dims' derivative' result'
    | _, _ => Err AssertionE
    end.
  Fixpoint tp_grad_outer (x : list T) (dims : list nat) (ider n : nat)
           (derivatives : list (list dfun)) (result : list T) : res (list T) :=
    match derivatives with
    | [] => Ok result
    | derivative :: derivatives' =>
        let* nders := getitem dims ider in
        let* result' := tp_grad_inner x nders n 0 dims derivative result in
        tp_grad_outer x dims (S ider) (n + nders) derivatives' result'
    end.
  Definition tp_grad_call (dims : list nat) (derivatives : list (list dfun)) : bgrad := fun x =>
    if negb (length x =? sum_nat dims) then Err AssertionE
    else tp_grad_outer x dims 0 0 derivatives (repeat (vc o 1%R) (sum_nat dims)).

  (** modes.py:902-913, 931-933: functions of the simplex bases. *)
  Definition simplex_onb_functions (dim order : nat) : res (list bfun) :=
    let ids := simplex_mode_tuples dim order in
    match dim with
    | 0 => Ok [zerod_basis o]
    | 1 => Ok (map (pkdo_1d o) ids)
    | 2 => Ok (map (pkdo_2d_fn o) ids)
    | 3 => Ok (map (pkdo_3d_fn o) ids)
    | _ => Err NotImplementedE
    end.
  (** modes.py:915-924 *)
  Definition simplex_onb_gradients (dim order : nat) : res (list bgrad) :=
    let ids := simplex_mode_tuples dim order in
    match dim with
    | 1 => Ok (map (grad_pkdo_1d o) ids)
    | 2 => Ok (map (grad_pkdo_2d_fn o) ids)
    | 3 => Ok (map (grad_pkdo_3d_fn o) ids)
    | _ => Err NotImplementedE
    end.

  (** modes.py:1014-1021: [_mode_index_tuples] from the numbers of functions of
      the bases. *)
  Definition mode_index_tuples (counts : list nat) : list (list nat) :=
    map (@rev nat) (gnitb (rev counts)).

  (** modes.py:1061-1070, 931-933: [functions]. *)
  Fixpoint functions (b : basis) : res (list bfun) :=
    match b with
    | SimplexONB d n => simplex_onb_functions d n
    | SimplexMonomial d n => Ok (map (monomial o) (simplex_mode_tuples d n))
    | TPBasis bases dims =>
        let* fss := mapM functions bases in
        mapM (fun mid => let* fs := zipM (fun fs i => getitem fs i) fss mid in
                         Ok (tp_call dims fs))
             (mode_index_tuples (map (@length _) fss))
    end.

  (** modes.py:1072-1087, 935-937: [gradients]. *)
  Fixpoint gradients (b : basis) : res (list bgrad) :=
    match b with
    | SimplexONB d n => simplex_onb_gradients d n
    | SimplexMonomial d n => Ok (map (grad_monomial o) (simplex_mode_tuples d n))
    | TPBasis bases dims =>
        let* fss := mapM functions bases in
        let* gss := mapM gradients bases in
        let pick (is_deriv : nat) (fg : list bfun * list bgrad) (i : nat) : res dfun :=
          match is_deriv with
          | 0 => let* f := getitem (fst fg) i in Ok (inl f)
          | _ => let* g := getitem (snd fg) i in Ok (inr g)
          end in
        mapM (fun mid =>
                let* ders :=
                  mapM (fun indicator =>
                          zipM (fun (p : nat * (list bfun * list bgrad)) i =>
                                  pick (fst p) (snd p) i)
                               (combine indicator (combine fss gss)) mid)
                       (wandering_element (length bases)) in
                Ok (tp_grad_call dims ders))
             (mode_index_tuples (map (@length _) fss))
    end.

  (** Python tuple indexing with a possibly negative index. *)
  Definition getitem_z {A} (l : list A) (i : Z) : res A :=
    if (i <? 0)%Z
    then if (0 <=? i + Z.of_nat (length l))%Z
         then getitem l (Z.to_nat (i + Z.of_nat (length l)))
         else Err IndexError
    else getitem l (Z.to_nat i).

  (** modes.py:1023-1030: [_dim_ranges]. *)
  Fixpoint dim_ranges (idim : nat) (dims : list nat) : list (nat * nat) :=
    match dims with
    | [] => []
    | d :: dims' => (idim, idim + d) :: dim_ranges (idim + d) dims'
    end.

  (** modes.py:816-836 (default), 939-942 (monomials), 1089-1102 (tensor
      products): [derivatives(axis)]. *)
  Fixpoint derivatives (b : basis) (axis : Z) {struct b} : res (list bfun) :=
    match b with
    | SimplexONB d n =>
        let* gs := simplex_onb_gradients d n in
        Ok (map (fun (g : bgrad) => (fun x => let* c := g x in getitem_z c axis) : bfun) gs)
    | SimplexMonomial d n =>
        Ok (map (fun mid => diff_monomial o mid axis) (simplex_mode_tuples d n))
    | TPBasis bases dims =>
        let* fss := mapM functions bases in
        mapM (fun mid =>
                let* fs :=
                  zipM (fun p (q : nat * (nat * nat)) =>
                          let '(mid_i, (start_axis, end_axis)) := q in
                          if ((Z.of_nat start_axis <=? axis) && (axis <? Z.of_nat end_axis))%Z
                          then let* ds := (fst p) (axis - Z.of_nat start_axis)%Z in
                               getitem ds mid_i
                          else getitem (snd p) mid_i)
                       (combine (map (fun b' => derivatives b') bases) fss)
                       (combine mid (dim_ranges 0 dims)) in
                if length mid =? length dims then Ok (tp_call dims fs) else Err ValueError)
             (mode_index_tuples (map (@length _) fss))
    end.
End Functions.

(** Number of functions of a basis ([len(b.functions)], modes.py:1019-1021). *)
Definition nfunctions (b : basis) : res nat :=
  let* fs := functions Rops b in Ok (length fs).

(** modes.py:1034-1038: a mode id that is a 1-tuple of an int. *)
Definition is_singleton_with_int (m : mode_id) : bool :=
  match m with MTuple [MInt _] => true | _ => false end.

(** modes.py:1040-1051: [part_flat_tuple]. *)
Fixpoint part_flat (l : list (bool * mode_id)) : res (list mode_id) :=
  match l with
  | [] => Ok []
  | (true, MTuple items) :: l' => let* r := part_flat l' in Ok (items ++ r)
  | (true, MInt _) :: _ => Err AssertionE
  | (false, m) :: l' => let* r := part_flat l' in Ok (m :: r)
  end.

(** modes.py:888-893, 1032-1059: [mode_ids]. *)
Fixpoint mode_ids (b : basis) : res (list mode_id) :=
  match b with
  | SimplexONB d n | SimplexMonomial d n => Ok (map mid_of_tuple (simplex_mode_tuples d n))
  | TPBasis bases _ =>
      let* lists := mapM mode_ids bases in
      let flags := map (forallb is_singleton_with_int) lists in
      let* counts := mapM nfunctions bases in
      mapM (fun mit =>
              let* items := zipM (fun (p : bool * list mode_id) i =>
                                    let* m := getitem (snd p) i in Ok (fst p, m))
                                 (combine flags lists) mit in
              let* t := part_flat items in Ok (MTuple t))
           (mode_index_tuples counts)
  end.

(** modes.py:899-900, 928-929, 993-997: [orthonormality_weight]. *)
Fixpoint orthonormality_weight (b : basis) : res R :=
  match b with
  | SimplexONB _ _ => Ok 1%R
  | SimplexMonomial _ _ => Err BasisNotOrthonormalE
  | TPBasis bases _ =>
      let* ws := mapM orthonormality_weight bases in
      Ok (fold_left Rmult ws 1%R)
  end.

(** modes.py:956-961, 1105-1120: [orthonormal_basis_for_space]. *)
Fixpoint orthonormal_basis_for_space (space : fspace) (sh : shape) {struct space} : res basis :=
  match space with
  | PN d n => match sh with
              | Simplex _ => Ok (SimplexONB d n)
              | TPShape _ _ _ => Err NotImplementedE
              end
  | TPSpace _ bases =>
      match sh with
      | Simplex _ => Err NotImplementedE
      | TPShape _ sd shbases =>
          if negb (spatial_dim space =? sd) then Err ValueError
          else let* bs := zipM (fun b s => orthonormal_basis_for_space b s) bases shbases in
               Ok (mk_TensorProductBasis bs (Some (map spatial_dim bases)))
      end
  end.

(** modes.py:945-953, 1123-1135: [basis_for_space]. *)
Fixpoint basis_for_space (space : fspace) (sh : shape) {struct space} : res basis :=
  match space with
  | PN d n => match sh with
              | Simplex _ => Ok (if d <=? 3 then SimplexONB d n else SimplexMonomial d n)
              | TPShape _ _ _ => Err NotImplementedE
              end
  | TPSpace _ bases =>
      match sh with
      | Simplex _ => Err NotImplementedE
      | TPShape _ sd shbases =>
          if negb (spatial_dim space =? sd) then Err ValueError
          else let* bs := zipM (fun b s => basis_for_space b s) bases shbases in
               Ok (mk_TensorProductBasis bs (Some (map spatial_dim bases)))
      end
  end.

(** modes.py:964-969, 1138-1149: [monomial_basis_for_space]. *)
Fixpoint monomial_basis_for_space (space : fspace) (sh : shape) {struct space} : res basis :=
  match space with
  | PN d n => match sh with
              | Simplex _ => Ok (SimplexMonomial d n)
              | TPShape _ _ _ => Err NotImplementedE
              end
  | TPSpace _ bases =>
      match sh with
      | Simplex _ => Err NotImplementedE
      | TPShape _ _ shbases =>
          let* bs := zipM (fun b s => monomial_basis_for_space b s) bases shbases in
          Ok (mk_TensorProductBasis bs (Some (map spatial_dim bases)))
      end
  end.
