(** * Specification vocabulary: lattices of nodes and simplices spanned by nodes *)
From Coq Require Import List Arith Reals Lra Lia.
From Verif Require Import SpecIndex SpecGeometry.
Import ListNotations.
Local Open Scope R_scope.

(** The node tuples form the full order-n lattice of the d-simplex, each tuple once, in any order. *)
Definition simplex_lattice (d n : nat) (nts : list (list nat)) : Prop :=
  NoDup nts /\ forall t, In t nts <-> length t = d /\ (total t <= n)%nat.

(** Position of a node in the bi-unit element. *)
Definition node_position (n : nat) (t : list nat) : list R := map (fun i => -1 + 2 * INR i / INR n) t.
Definition element_vertices (n : nat) (nts : list (list nat)) (e : list nat) : list (list R) :=
  map (fun i => node_position n (nth i nts [])) e.

(** x is the combination of the points vs with weights w. *)
Definition combination (d : nat) (w : list R) (vs : list (list R)) (x : list R) : Prop :=
  length w = length vs /\ list_sum w = 1 /\ length x = d
  /\ forall i, (i < d)%nat -> nth i x 0 = list_sum (map (fun '(a, v) => a * nth i v 0) (combine w vs)).
(** Convex hull, and the set of combinations with positive weights (the interior of a non-degenerate simplex). *)
Definition hull (d : nat) (vs : list (list R)) (x : list R) : Prop := exists w, Forall (Rle 0) w /\ combination d w vs x.
Definition open_hull (d : nat) (vs : list (list R)) (x : list R) : Prop := exists w, Forall (Rlt 0) w /\ combination d w vs x.

(** Determinant by expansion along the first row; signed volume of a simplex times d!. *)
Definition drop_col {A} (j : nat) (row : list A) : list A := firstn j row ++ skipn (S j) row.
Fixpoint det (d : nat) (rows : list (list R)) : R :=
  match d, rows with
  | S d', row :: rest => list_sum (map (fun j => (-1) ^ j * nth j row 0 * det d' (map (drop_col j) rest)) (seq 0 d))
  | _, _ => 1
  end.
Definition edges (vs : list (list R)) : list (list R) :=
  match vs with [] => [] | v0 :: rest => map (fun v => map (fun '(a, b) => a - b) (combine v v0)) rest end.
