(** * Rules read from tables: modepy/quadrature/witherden_vincent.py,
    modepy/quadrature/jaskowiec_sukumar.py, modepy/quadrature/vioreanu_rokhlin.py

    Orders are natural numbers; the tables have no negative keys, so that a negative
    order raises KeyError like any other missing one. *)
From Coq Require Import List Arith Bool ZArith QArith Reals.
From Verif Require Import Py RSum ModelNd ModelNodes ModelQuad ModelLinAlg ModelTools ModelQuadSpace.
Import ListNotations.
Local Open Scope R_scope.

(** A row of a table: the array under "points" given by its columns, the array under
    "weights" and the integer under "quad_degree". *)
Record table_row := mkRow { tr_points : list (list R); tr_weights : list R; tr_degree : nat }.
(** A dictionary of rows. *)
Definition rule_table : Type := nat -> option table_row.

(** witherden_vincent.py:48-68: WitherdenVincentQuadrature.__init__ *)
Definition wv_quad (quad_data hex_data : rule_table) (order dims : nat) : res quad :=
  let* table := match dims with
                | 2%nat => Ok quad_data
                | 3%nat => Ok hex_data
                | _ => Err RuleUnavailable
                end in
  match table order with
  | None => Err RuleUnavailable
  | Some rule => Ok (mkQuad false dims (tr_points rule) (tr_weights rule) (Some (degree (tr_degree rule))))
  end.

(** jaskowiec_sukumar.py:49-67: JaskowiecSukumarQuadrature.__init__ *)
Definition js_quad (tet_data : rule_table) (order dims : nat) : res quad :=
  let* table := if (dims =? 3)%nat then Ok tet_data else Err RuleUnavailable in
  match table order with
  | None => Err RuleUnavailable
  | Some rule =>
      let points := map (map (fun t => 2 * t - 1)) (tr_points rule) in
      let weights := map (fun w => 4 / 3 * w) (tr_weights rule) in
      Ok (mkQuad false dims points weights (Some (degree (tr_degree rule))))
  end.

(** vioreanu_rokhlin.py:66-101: VioreanuRokhlinSimplexQuadrature.__init__; weights that
    sum to zero (division by zero in numpy: inf or nan) are not told apart from others *)
Definition vr_quad (triangle_data tetrahedron_data : rule_table) (order dims : nat) : res quad :=
  let* tv := match dims with
             | 2%nat => Ok (triangle_data, 2)
             | 3%nat => Ok (tetrahedron_data, 4 / 3)
             | _ => Err RuleUnavailable
             end in
  let (table, ref_volume) := tv in
  let* e2u := equilateral_to_unit_map dims in
  match table order with
  | None => Err RuleUnavailable
  | Some order_table =>
      let* nodes := mapM (am_call e2u) (tr_points order_table) in
      let wts := tr_weights order_table in
      let wts := map (fun w => w * (ref_volume / fold_right Rplus 0 wts)) wts in
      Ok (mkQuad false dims nodes wts (Some (degree (tr_degree order_table))))
  end.

(** ** Decimal tables *)
(** A decimal literal: the numerator over 10^k. *)
Definition dec (k : nat) (z : Z) : R := IZR z / 10 ^ k.
(** A dictionary display with decimal literals: the key, the rows under "points" over
    10^kp, the list under "weights" over 10^kw, and "quad_degree". *)
Definition dec_table : Type := list (nat * (list (list Z) * list Z * nat)).
(** The columns of an array given by its rows; the tables are rectangular (checked in
    C72). *)
Definition columns {X} (d : X) (rows : list (list X)) : list (list X) :=
  map (fun i => map (fun r => nth i r d) rows) (seq 0 (length (hd [] rows))).
(** witherden_vincent_quad_data.py:19-26 (process_rules), vr_quad_data_tri.py:13-24,
    vr_quad_data_tet.py:13-24 (process_rule): lists become arrays, empty rows of
    "points" are dropped in the latter two (the others have none). *)
Definition read_row (kp kw : nat) (row : list (list Z) * list Z * nat) : table_row :=
  let '(points, weights, quad_degree) := row in
  mkRow (columns 0 (map (map (dec kp)) (filter (fun r => negb (length r =? 0)%nat) points)))
        (map (dec kw) weights) quad_degree.
(** [table[order]]: the last entry of a display with the given key; keys are
    distinct (checked in C72), so it is the first one as well *)
Fixpoint assoc {X} (key : nat) (t : list (nat * X)) : option X :=
  match t with
  | [] => None
  | (k, v) :: t' => if (k =? key)%nat then Some v else assoc key t'
  end.
Definition read_table (kp kw : nat) (t : dec_table) : rule_table :=
  fun order => option_map (read_row kp kw) (assoc order t).
(** xg_quad_data.py:16409-16412 and 18540-18543: "points" has one list per point and is
    transposed in xiao_gimbutas.py:73; [xg_quad] takes the points as they are *)
Definition xg_dec_table : Type := list (nat * (list (list Z) * list Z)).
Definition read_xg (kp kw : nat) (triangle tetrahedron : xg_dec_table) : xg_table :=
  fun dims order =>
    option_map (fun pw => (map (map (dec kp)) (fst pw), map (dec kw) (snd pw)))
               (assoc order (if (dims =? 2)%nat then triangle else tetrahedron)).
