(** * Choosing a rule for a space: modepy/quadrature/__init__.py:274-356,
    modepy/quadrature/xiao_gimbutas.py *)
From Coq Require Import List Arith Bool ZArith QArith Reals Lia.
From Verif Require Import Py PyToolsModel ModelNd ModelShapes ModelSpaces ModelNodes ModelModes ModelQuad ModelGM ModelGauss ModelLinAlg ModelTools.
Import ListNotations.
Local Open Scope R_scope.

(** The rule tables of modepy/quadrature/xg_quad_data.py are data: [table dims order]
    are the points (equilateral coordinates, one list per point) and weights found
    under the key [order], if there is such a key. *)
Definition xg_table : Type := nat -> nat -> option (list (list R) * list R).

Section Choose.
  Context (eigh : eigh_t) (roots_jacobi : roots_t) (table : xg_table).

  (** xiao_gimbutas.py:49-76: XiaoGimbutasSimplexQuadrature.__init__ *)
  Definition xg_quad (order dims : nat) : res quad :=
    if negb ((dims =? 2) || (dims =? 3))%nat then Err RuleUnavailable
    else
      match table dims order with
      | None => Err RuleUnavailable
      | Some (points, weights) =>
          let* e2u := equilateral_to_unit_map dims in
          let* nodes := mapM (am_call e2u) points in
          let* jac := am_jacobian e2u in
          Ok (mkQuad false dims nodes (map (fun w => w * jac) weights) (Some (degree order)))
      end.

  (** quadrature/__init__.py:274-285 *)
  Definition legendre_gauss_tp (N dims : nat) (be : option backend) : res quad :=
    let* q := legendre_gauss eigh roots_jacobi N be true in
    tp_quad (repeat q dims).
  (** quadrature/__init__.py:288-299 *)
  Definition legendre_gauss_lobatto_tp (N dims : nat) (be : option backend) : res quad :=
    let* q := legendre_gauss_lobatto eigh roots_jacobi N be true in
    tp_quad (repeat q dims).

  (** quadrature/__init__.py:332: [assert quad.exact_to >= order] *)
  Definition assert_degree (q : quad) (order : res nat) : res unit :=
    let* e := exact_to q in
    let* n := order in
    let* b := py_ge e (degree n) in
    if b then Ok tt else Err AssertionE.
  (** quadrature/__init__.py:355: [getattr(s, "order", 0)]; other exceptions than
      AttributeError pass *)
  Definition order_or_0 (s : fspace) : res nat :=
    match space_order s with Err AttributeError => Ok 0%nat | r => r end.
  (** quadrature/__init__.py:355: the assertion stops at the first base that fails it *)
  Fixpoint assert_degrees (q : quad) (bases : list fspace) : res unit :=
    match bases with
    | [] => Ok tt
    | s :: rest => let* _ := assert_degree q (order_or_0 s) in assert_degrees q rest
    end.

  (** quadrature/__init__.py:313-333: _quadrature_for_pn *)
  Definition quadrature_for_pn (d n : nat) (sh : shape) : res quad :=
    match sh with
    | TPShape _ _ _ => Err NotImplementedE
    | Simplex d' =>
        if negb (d =? d')%nat then Err ValueError
        else
          let* q := match d with
                    | 0%nat => Ok zero_dim_quad
                    | 1%nat => legendre_gauss eigh roots_jacobi n None true
                    | _ => match xg_quad n d with
                           | Err RuleUnavailable => gm_quad (n / 2)%nat d
                           | r => r
                           end
                    end in
          let* _ := assert_degree q (Ok n) in
          Ok q
    end.
  (** quadrature/__init__.py:304-356: quadrature_for_space; line 342 reads
      [type(shape).__name], an attribute no class has, while building the
      NotImplementedError *)
  Fixpoint quadrature_for_space (space : fspace) (sh : shape) {struct space} : res quad :=
    match space with
    | PN d n => quadrature_for_pn d n sh
    | TPSpace _ bases =>
        match sh with
        | Simplex _ => Err AttributeError
        | TPShape _ sd shbases =>
            if negb (spatial_dim space =? sd)%nat then Err ValueError
            else
              let* q := if (spatial_dim space =? 0)%nat then Ok zero_dim_quad
                        else let* qs := zipM (fun s b => quadrature_for_space s b) bases shbases in
                             tp_quad qs in
              let* _ := assert_degrees q bases in
              Ok q
        end
    end.
End Choose.
