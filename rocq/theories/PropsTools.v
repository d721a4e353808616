(** * C15, C16: coordinate maps and monomials *)
From Coquelicot Require Import Coquelicot.
From Coq Require Import List Arith Bool ZArith Reals Lra Lia.
From Verif Require Import Py RSum ModelShapes ModelNd ModelNodes ModelLinAlg ModelTools.
From Verif Require Import SpecIndex SpecSpan EnumFacts IntFacts SpecGeometry SpecIntegral SpecPartial SpecPoly ProofMonomial ProofDirichlet ProofLinAlg ProofDet ProofMatrices.
Import ListNotations.
Local Open Scope R_scope.

(** ** C15 *)
Lemma fold_left_plus l : forall a, fold_left Rplus l a = a + list_sum l.
Proof. unfold list_sum. induction l as [|x l IH]; intros a; cbn [fold_left fold_right]; [ring|]. rewrite IH. ring. Qed.
Lemma rsum_nth_sum l : rsum (fun j => nth j l 0) (length l) = list_sum l.
Proof.
  unfold list_sum. induction l as [|x l IH]; [reflexivity|]. cbn [length fold_right]. rewrite rsum_shift. cbn [nth]. now rewrite IH.
Qed.
Lemma nth_map_seq' {X} (f : nat -> X) n j d : (j < n)%nat -> nth j (map f (seq 0 n)) d = f j.
Proof.
  intros H. rewrite (nth_indep _ d (f 0%nat)) by (rewrite map_length, seq_length; easy). rewrite (map_nth f (seq 0 n) 0%nat j). now rewrite seq_nth.
Qed.
Lemma bary_unit_coord b i d : length b = S d -> (i < d)%nat ->
  nth i (mat_vec d (pts_cols (unit_vertices_for_simplex d)) b) 0 = 2 * nth (S i) b 0 - list_sum b.
Proof.
  intros L Hi. unfold mat_vec. rewrite nth_map_seq' by easy. unfold unit_vertices_for_simplex. cbn [pts_cols]. rewrite map_length, seq_length.
  rewrite (rsum_ext _ (fun j => 2 * (delta (S i) j * nth j b 0) - nth j b 0)).
  - replace (d + 1)%nat with (S d) by lia. rewrite rsum_minus, rsum_scal, (rsum_delta (fun j => nth j b 0)) by lia. rewrite <- L, rsum_nth_sum. ring.
  - intros j Hj. rewrite (nth_map_seq' (fun j0 => map (fun i0 => if (j0 =? i0 + 1)%nat then 1 else -1) (seq 0 d)) (d + 1) j []) by lia.
    rewrite nth_map_seq' by easy. unfold delta. rewrite Nat.add_1_r, Nat.eqb_sym. destruct (S i =? j)%nat; ring.
Qed.
Lemma mat_vec_length d vs b : length (mat_vec d vs b) = d.
Proof. unfold mat_vec. now rewrite map_length, seq_length. Qed.
Lemma b2u_eq d b : length b = S d -> barycentric_to_unit b = Ok (mat_vec d (pts_cols (unit_vertices_for_simplex d)) b).
Proof. intros L. unfold barycentric_to_unit. rewrite L. cbn [Nat.eqb]. now replace (S d - 1)%nat with d by lia. Qed.
Lemma list_eq_nth (l l' : list R) : length l = length l' -> (forall i, (i < length l)%nat -> nth i l 0 = nth i l' 0) -> l = l'.
Proof. intros L H. apply (nth_ext _ _ 0 0 L H). Qed.
Lemma u2b_sum u : list_sum (unit_to_barycentric u) = 1.
Proof. unfold unit_to_barycentric. cbv zeta. rewrite fold_left_plus. unfold list_sum. cbn [fold_right]. ring. Qed.

(** Barycentric -> unit -> barycentric, in every dimension. *)
Theorem C15_barycentric_round_trip d b : length b = S d -> list_sum b = 1 ->
  exists u, barycentric_to_unit b = Ok u /\ length u = d /\ unit_to_barycentric u = b.
Proof.
  intros L H. eexists. split; [exact (b2u_eq d b L)|]. split; [apply mat_vec_length|].
  set (u := mat_vec _ _ _).
  assert (E : map (fun t => 1 / 2 * (t + 1)) u = tl b).
  { apply list_eq_nth.
    - rewrite map_length. unfold u. rewrite mat_vec_length. destruct b; [discriminate|]. cbn in *. lia.
    - intros i Hi. rewrite map_length in Hi. unfold u in Hi. rewrite mat_vec_length in Hi.
      rewrite (nth_indep _ 0 (1 / 2 * (0 + 1))) by (rewrite map_length; unfold u; now rewrite mat_vec_length).
      rewrite (map_nth (fun t => 1 / 2 * (t + 1))). unfold u. rewrite bary_unit_coord, H by easy. destruct b; [discriminate|]. cbn [nth tl]. field. }
  unfold unit_to_barycentric. cbv zeta. rewrite E, fold_left_plus. destruct b as [|b0 b]; [discriminate|]. cbn [tl]. f_equal.
  unfold list_sum in *. cbn [fold_right] in H. lra.
Qed.
(** Unit -> barycentric -> unit, and the barycentric coordinates sum to one. *)
Theorem C15_unit_round_trip u : barycentric_to_unit (unit_to_barycentric u) = Ok u
  /\ length (unit_to_barycentric u) = S (length u) /\ list_sum (unit_to_barycentric u) = 1.
Proof.
  assert (L : length (unit_to_barycentric u) = S (length u)) by (unfold unit_to_barycentric; cbv zeta; cbn [length]; now rewrite map_length).
  split; [|split; [easy|apply u2b_sum]]. rewrite (b2u_eq (length u)) by easy. f_equal. apply list_eq_nth; [apply mat_vec_length|].
  rewrite mat_vec_length. intros i Hi. rewrite bary_unit_coord, u2b_sum by easy. unfold unit_to_barycentric. cbv zeta. cbn [nth].
  rewrite (nth_indep _ 0 (1 / 2 * (0 + 1))) by now rewrite map_length. rewrite (map_nth (fun t => 1 / 2 * (t + 1))). field.
Qed.
(** The barycentric coordinates are those of the specification, i.e. the point is the
    corresponding combination of the vertices (-1,..,-1), (1,-1,..,-1), ... *)
Theorem C15_barycentric u : unit_to_barycentric u = barycentric u.
Proof.
  unfold unit_to_barycentric, barycentric. cbv zeta. rewrite fold_left_plus. replace (map (fun t => 1 / 2 * (t + 1)) u) with (map (fun c => (c + 1) / 2) u); [f_equal; ring|].
  apply map_ext. intros t. field.
Qed.
(** Vertices are mapped to unit vectors and back. *)
Definition unit_vec (n j : nat) : list R := map (fun i => if (i =? j)%nat then 1 else 0) (seq 0 n).
Definition simplex_vertex (d j : nat) : list R := map (fun i => if (S i =? j)%nat then 1 else -1) (seq 0 d).
Theorem C15_vertices d j : (j <= d)%nat ->
  unit_to_barycentric (simplex_vertex d j) = unit_vec (S d) j
  /\ barycentric_to_unit (unit_vec (S d) j) = Ok (simplex_vertex d j).
Proof.
  intros Hj.
  assert (E : unit_to_barycentric (simplex_vertex d j) = unit_vec (S d) j).
  { rewrite C15_barycentric. unfold barycentric.
    assert (E1 : map (fun c => (c + 1) / 2) (simplex_vertex d j) = tl (unit_vec (S d) j)).
    { unfold simplex_vertex, unit_vec. cbn [seq map tl]. rewrite <- seq_shift, !map_map. apply map_ext. intros i. destruct (S i =? j)%nat; field. }
    rewrite E1. unfold unit_vec at 2. cbn [seq map]. unfold unit_vec. cbn [seq map tl]. f_equal. clear E1.
    assert (K : forall n s, list_sum (map (fun i => if (i =? j)%nat then 1 else 0) (seq s n)) = if ((s <=? j) && (j <? s + n))%nat then 1 else 0).
    { induction n as [|n IH]; intros s; cbn [seq map].
      - destruct (Nat.leb_spec s j), (Nat.ltb_spec j (s + 0)); cbn; try reflexivity; lia.
      - change (list_sum (?a :: ?l)) with (a + list_sum l). rewrite IH.
        destruct (Nat.eqb_spec s j), (Nat.leb_spec (S s) j), (Nat.ltb_spec j (S s + n)), (Nat.leb_spec s j), (Nat.ltb_spec j (s + S n)); cbn [andb]; try lia; ring. }
    rewrite K. destruct j as [|j]; [cbn; ring|]. cbn [Nat.eqb]. replace ((1 <=? S j) && (S j <? 1 + d))%nat with true; [ring|].
    symmetry. apply andb_true_iff. split; [apply Nat.leb_le|apply Nat.ltb_lt]; lia. }
  split; [easy|]. rewrite <- E. apply C15_unit_round_trip.
Qed.

(** Equilateral coordinates: dimensions 1, 2, 3; anything else is a KeyError. *)
Lemma sqrt_facts : sqrt 3 * sqrt 3 = 3 /\ sqrt 6 * sqrt 6 = 6 /\ 0 < sqrt 3 /\ 0 < sqrt 6.
Proof. repeat split; first [apply sqrt_sqrt; lra|apply sqrt_lt_R0; lra]. Qed.
Lemma cons_eq (a b : R) l m : a = b -> l = m -> a :: l = b :: m.
Proof. now intros -> ->. Qed.
Theorem C15_equilateral b d : length b = S d -> list_sum b = 1 -> (1 <= d <= 3)%nat ->
  exists e u, barycentric_to_equilateral b = Ok e /\ equilateral_to_unit e = Ok u /\ barycentric_to_unit b = Ok u.
Proof.
  intros L H Hd. destruct sqrt_facts as (S3 & S6 & P3 & P6).
  assert (N3 : sqrt 3 <> 0) by lra. assert (N6 : sqrt 6 <> 0) by lra.
  rewrite (b2u_eq d) by easy. unfold barycentric_to_equilateral. rewrite L. cbn [Nat.eqb]. replace (S d - 1)%nat with d by lia.
  assert (I3 : / sqrt 3 * / sqrt 3 = / 3) by (rewrite <- Rinv_mult, S3; reflexivity).
  assert (I6 : / sqrt 6 * / sqrt 6 = / 6) by (rewrite <- Rinv_mult, S6; reflexivity).
  assert (J6 : sqrt 6 * / sqrt 6 = 1) by (field; easy).
  unfold list_sum in H.
  destruct d as [|[|[|[|d]]]]; try lia.
  - destruct b as [|b0 [|b1 [|]]]; try discriminate. cbn [fold_right] in H.
    eexists. eexists. split; [reflexivity|]. split; [reflexivity|]. f_equal. unfold mat_vec. cbn. apply cons_eq; [lra|reflexivity].
  - destruct b as [|b0 [|b1 [|b2 [|]]]]; try discriminate. cbn [fold_right] in H.
    eexists. eexists. split; [reflexivity|]. split; [reflexivity|]. f_equal. unfold mat_vec. cbn.
    set (r := / sqrt 3) in *. unfold Rdiv. fold r. replace b0 with (1 - b1 - b2) by lra. apply cons_eq; [|apply cons_eq; [|reflexivity]].
    + transitivity ((- (1 - b1 - b2) + b1) + (r * r) * (1 - b2 - 2 * b2) - / 3); [rewrite I3; field|ring].
    + transitivity ((r * r) * 2 * (2 * b2 - (1 - b2)) - / 3); [rewrite I3; field|ring].
  - destruct b as [|b0 [|b1 [|b2 [|b3 [|]]]]]; try discriminate. cbn [fold_right] in H.
    eexists. eexists. split; [reflexivity|]. split; [reflexivity|]. f_equal. unfold mat_vec. cbn.
    set (r := / sqrt 3) in *. set (q := / sqrt 6) in *. set (s := sqrt 6) in *. unfold Rdiv. fold r. fold q. fold s. replace b0 with (1 - b1 - b2 - b3) by lra. apply cons_eq; [|apply cons_eq; [|apply cons_eq; [|reflexivity]]].
    + transitivity ((- (1 - b1 - b2 - b3) + b1) + (r * r) * (1 - b2 - b3 - 2 * b2) + (q * q) * (1 - b3 - 3 * b3) - / 2); [rewrite I3, I6; field|ring].
    + transitivity ((r * r) * 2 * (2 * b2 - (1 - b2 - b3)) + (q * q) * (1 - b3 - 3 * b3) - / 2); [rewrite I3, I6; field|ring].
    + transitivity ((s * q) * / 2 * (3 * b3 - (1 - b3)) - / 2); [rewrite J6; field|ring].
Qed.
Theorem C15_equilateral_other b : (length b = 0 \/ length b = 1 \/ 4 < length b)%nat -> barycentric_to_equilateral b = Err KeyError.
Proof.
  intros [H|[H|H]]; unfold barycentric_to_equilateral.
  - now rewrite H.
  - rewrite H. reflexivity.
  - destruct b as [|? [|? [|? [|? [|? b]]]]]; cbn [length] in H; try lia. reflexivity.
Qed.
(** The element is equilateral: all edges have length 2. *)
Definition dist2 (p q : list R) : R := list_sum (map (fun ab => (fst ab - snd ab) ^ 2) (combine p q)).
Theorem C15_equilateral_edges d vs p q : equilateral_vertices d = Ok vs -> In p vs -> In q vs -> p <> q -> dist2 p q = 4.
Proof.
  destruct sqrt_facts as (S3 & S6 & P3 & P6).
  assert (I3 : / sqrt 3 * / sqrt 3 = / 3) by (rewrite <- Rinv_mult, S3; reflexivity).
  assert (I6 : / sqrt 6 * / sqrt 6 = / 6) by (rewrite <- Rinv_mult, S6; reflexivity).
  intros E Hp Hq Hne. unfold dist2, list_sum.
  destruct d as [|[|[|[|d]]]]; try discriminate; injection E as <-; cbn [In] in Hp, Hq; unfold Rdiv in *;
    set (r := / sqrt 3) in *; set (s := / sqrt 6) in *;
    repeat match goal with H : _ \/ _ |- _ => destruct H as [H|H] | H : False |- _ => destruct H end; subst p q; try easy;
    cbn [combine map fold_right fst snd pow]; nra.
Qed.

(** AffineMap.inverse *)
Lemma am_call_ok m x y : am_call m x = Ok y -> length x = ncols (am_a m) /\ length y = nrows (am_a m) /\ length (am_b m) = nrows (am_a m)
  /\ forall i, (i < nrows (am_a m))%nat -> nth i y 0 = rsum (fun j => ent (am_a m) i j * nth j x 0) (length x) + nth i (am_b m) 0.
Proof.
  unfold am_call. destruct (Nat.eqb_spec (ncols (am_a m)) (length x)) as [E|]; [|discriminate].
  destruct (Nat.eqb_spec (length (am_b m)) (nrows (am_a m))) as [E'|]; [|discriminate]. cbn [negb]. intros H.
  match goal with H : Ok ?x = Ok y |- _ => assert (y = x) as -> by congruence end. rewrite map_length, seq_length.
  split; [easy|]. split; [easy|]. split; [easy|]. intros i Hi. now rewrite nth_map_seq'.
Qed.
Lemma am_call_def m x : length x = ncols (am_a m) -> length (am_b m) = nrows (am_a m) -> exists y, am_call m x = Ok y.
Proof. intros H1 H2. unfold am_call. rewrite <- H1, H2, !Nat.eqb_refl. cbn [negb]. eauto. Qed.
Lemma inv_facts m mi : am_inverse m = Ok mi -> let n := nrows (am_a m) in
  ncols (am_a m) = n /\ length (am_b m) = n /\ nrows (am_a mi) = n /\ ncols (am_a mi) = n /\ length (am_b mi) = n
  /\ (forall i j, (i < n)%nat -> (j < n)%nat -> rsum (fun k => ent (am_a m) i k * ent (am_a mi) k j) n = delta i j)
  /\ (forall i j, (i < n)%nat -> (j < n)%nat -> rsum (fun k => ent (am_a mi) i k * ent (am_a m) k j) n = delta i j)
  /\ (forall i, (i < n)%nat -> rsum (fun k => ent (am_a m) i k * nth k (am_b mi) 0) n = - nth i (am_b m) 0).
Proof.
  unfold am_inverse. destruct (np_inv (am_a m)) as [ai|] eqn:E1; [|discriminate]. cbn [bind].
  destruct (np_solve (am_a m) (col_mat (am_b m))) as [s|] eqn:E2; [|discriminate]. cbn [bind]. intros E. cbv zeta.
  match goal with H : Ok ?x = Ok mi |- _ => assert (mi = x) as -> by congruence end. clear E. cbn [am_a am_b].
  destruct (np_inv_ok E1) as (A1 & A2 & A3 & _ & A4 & A5). destruct (np_solve_ok E2) as (_ & B1 & B2 & _ & _ & B3).
  cbn [nrows ncols col_mat] in B1, B3. rewrite map_length, seq_length.
  split; [easy|]. split; [easy|]. split; [easy|]. split; [easy|]. split; [easy|]. split; [exact A4|]. split; [exact A5|].
  intros i Hi. transitivity (rsum (fun k => -1 * (ent (am_a m) i k * ent s k 0%nat)) (nrows (am_a m))).
  - apply rsum_ext. intros k Hk. rewrite (nth_map_seq' (fun i => - ent s i 0%nat)) by lia. ring.
  - rewrite rsum_scal. rewrite (B3 i 0%nat Hi ltac:(lia)). cbn [ent col_mat]. ring.
Qed.
(** Composing the map and its inverse gives the identity, in both orders. *)
Theorem C15_inverse m mi x : am_inverse m = Ok mi -> length x = nrows (am_a m) ->
  (exists y, am_call m x = Ok y /\ am_call mi y = Ok x) /\ (exists y, am_call mi x = Ok y /\ am_call m y = Ok x).
Proof.
  intros E L. destruct (inv_facts m mi E) as (C & Bn & R1 & C1 & B1 & I1 & I2 & Hb). cbv zeta in *. set (n := nrows (am_a m)) in *.
  split.
  - destruct (am_call_def m x) as (y & Ey); [congruence|easy|]. exists y. split; [easy|].
    destruct (am_call_ok m x y Ey) as (_ & Ly & _ & Hy). destruct (am_call_def mi y) as (z & Ez); [exact (eq_trans Ly (eq_sym C1))|exact (eq_trans B1 (eq_sym R1))|]. rewrite Ez. f_equal.
    destruct (am_call_ok mi y z Ez) as (_ & Lz & _ & Hz). fold n in Ly, Hy. rewrite R1 in Lz, Hz. rewrite Ly in Hz. rewrite L in Hy.
    apply list_eq_nth; [congruence|]. rewrite Lz. intros i Hi. rewrite Hz by easy.
    (* z_i = sum_k ai_ik (sum_j a_kj x_j + b_k) + bi_i *)
    rewrite (rsum_ext _ (fun k => rsum (fun j => ent (am_a mi) i k * ent (am_a m) k j * nth j x 0) n + ent (am_a mi) i k * nth k (am_b m) 0)).
    2:{ intros k Hk. rewrite Hy by easy. rewrite Rmult_plus_distr_l. f_equal. rewrite <- rsum_scal. apply rsum_ext. intros j _. ring. }
    rewrite rsum_plus, rsum_swap.
    rewrite (rsum_ext (fun j => rsum _ n) (fun j => delta i j * nth j x 0)).
    2:{ intros j Hj. rewrite rsum_scal_r, I2 by easy. reflexivity. }
    rewrite (rsum_delta (fun j => nth j x 0)) by easy.
    rewrite (rsum_ext (fun k => ent (am_a mi) i k * nth k (am_b m) 0) (fun k => rsum (fun l => -1 * (ent (am_a mi) i k * ent (am_a m) k l * nth l (am_b mi) 0)) n)).
    2:{ intros k Hk. replace (nth k (am_b m) 0) with (- rsum (fun l => ent (am_a m) k l * nth l (am_b mi) 0) n) by (rewrite Hb by easy; ring).
        replace (ent (am_a mi) i k * - rsum (fun l => ent (am_a m) k l * nth l (am_b mi) 0) n) with (-1 * ent (am_a mi) i k * rsum (fun l => ent (am_a m) k l * nth l (am_b mi) 0) n) by ring.
        rewrite <- rsum_scal. apply rsum_ext. intros l _. ring. }
    rewrite rsum_swap. rewrite (rsum_ext (fun j => rsum _ n) (fun l => delta i l * (-1 * nth l (am_b mi) 0))).
    2:{ intros l Hl. rewrite rsum_scal, rsum_scal_r, I2 by easy. ring. }
    rewrite (rsum_delta (fun l => -1 * nth l (am_b mi) 0)) by easy. ring.
  - destruct (am_call_def mi x) as (y & Ey); [congruence|congruence|]. exists y. split; [easy|].
    destruct (am_call_ok mi x y Ey) as (_ & Ly & _ & Hy). destruct (am_call_def m y) as (z & Ez); [exact (eq_trans (eq_trans Ly R1) (eq_sym C))|easy|]. rewrite Ez. f_equal.
    destruct (am_call_ok m y z Ez) as (_ & Lz & _ & Hz). fold n in Lz, Hz. rewrite R1 in Ly, Hy. rewrite Ly in Hz. rewrite L in Hy.
    apply list_eq_nth; [congruence|]. rewrite Lz. intros i Hi. rewrite Hz by easy.
    rewrite (rsum_ext _ (fun k => rsum (fun j => ent (am_a m) i k * ent (am_a mi) k j * nth j x 0) n + ent (am_a m) i k * nth k (am_b mi) 0)).
    2:{ intros k Hk. rewrite Hy by easy. rewrite Rmult_plus_distr_l. f_equal. rewrite <- rsum_scal. apply rsum_ext. intros j _. ring. }
    rewrite rsum_plus, rsum_swap, Hb by easy.
    rewrite (rsum_ext (fun j => rsum _ n) (fun j => delta i j * nth j x 0)).
    2:{ intros j Hj. rewrite rsum_scal_r, I1 by easy. reflexivity. }
    rewrite (rsum_delta (fun j => nth j x 0)) by easy. ring.
Qed.
(** The inverse is defined exactly for square matrices with non-zero jacobian. *)
Theorem C15_inverse_defined m : nrows (am_a m) = ncols (am_a m) -> length (am_b m) = nrows (am_a m) ->
  exists J, am_jacobian m = Ok J /\ (J <> 0 -> exists mi, am_inverse m = Ok mi) /\ (J = 0 -> am_inverse m = Err LinAlgError).
Proof.
  intros H1 H2. unfold am_jacobian, np_det. rewrite <- H1, Nat.eqb_refl. eexists. split; [reflexivity|]. split.
  - intros HJ. apply det_nonsing in HJ. unfold am_inverse. destruct (@np_inv_succeeds (am_a m) H1 HJ) as (X & ->). cbn [bind].
    destruct (@np_solve_succeeds (am_a m) (col_mat (am_b m)) H1 H2 HJ) as (Y & ->). cbn [bind]. eauto.
  - intros HJ. unfold am_inverse. rewrite (@np_inv_singular (am_a m) H1); [reflexivity|]. intros HN. apply det_nonsing in HN. now apply HN.
Qed.
(** The maps to the unit element: their jacobians, positive in every dimension. *)
Theorem C15_jacobians : exists m1 m2 m3, equilateral_to_unit_map 1 = Ok m1 /\ equilateral_to_unit_map 2 = Ok m2 /\ equilateral_to_unit_map 3 = Ok m3
  /\ am_jacobian m1 = Ok 1 /\ am_jacobian m2 = Ok (2 / sqrt 3) /\ am_jacobian m3 = Ok (sqrt 2).
Proof.
  eexists. eexists. eexists. split; [reflexivity|]. split; [reflexivity|]. split; [reflexivity|].
  unfold am_jacobian, np_det. cbn [am_a nmat_of_rows nrows ncols length hd Nat.eqb ent].
  split; [|split]; f_equal.
  - rewrite det_upper by (intros i j Hj Hi; lia). now rewrite (big_prod1 (fun i => nth i (nth i [[1]] []) 0)).
  - rewrite det_upper. 2:{ intros [|[|i]] [|j] Hj Hi; try lia; reflexivity. }
    rewrite (big_prod2 (fun i => nth i (nth i [[1; -1 / sqrt 3]; [0; 2 / sqrt 3]] []) 0)). cbn. ring.
  - rewrite det_upper. 2:{ intros [|[|[|i]]] [|[|j]] Hj Hi; try lia; reflexivity. }
    rewrite (big_prod3 (fun i => nth i (nth i [[1; -1 / sqrt 3; -1 / sqrt 6]; [0; 2 / sqrt 3; -1 / sqrt 6]; [0; 0; sqrt 6 / 2]] []) 0)). cbn.
    replace 6 with (3 * 2) by ring. rewrite sqrt_mult by lra. destruct sqrt_facts as (_ & _ & P3 & _). field. lra.
Qed.
Example C15_example : exists m mi, am_inverse m = Ok mi /\ nrows (am_a m) = 2%nat /\ am_call m [1; 1] = Ok [5; 4].
Proof.
  set (m := mkAffine (nmat_of_rows [[1; 2]; [0; 3]]) [2; 1]).
  destruct (C15_inverse_defined m eq_refl eq_refl) as (J & EJ & H & _). destruct H as (mi & E).
  - unfold am_jacobian, np_det in EJ. cbn [am_a m nmat_of_rows nrows ncols length hd Nat.eqb ent] in EJ. match type of EJ with Ok ?x = Ok J => assert (HJ : J = x) by congruence end.
    rewrite HJ. rewrite det_upper. 2:{ intros [|[|i]] [|j] Hj Hi; try lia; reflexivity. }
    rewrite (big_prod2 (fun i => nth i (nth i [[1; 2]; [0; 3]] []) 0)). cbn. lra.
  - exists m, mi. split; [easy|]. split; [easy|]. cbn. do 2 f_equal; [ring|f_equal; ring].
Qed.

(** ** C16 *)
Lemma monoval_prod (e : list nat) (x : list R) : (length e <= length x)%nat ->
  fold_right Rmult 1 (map (fun ie => nth (fst ie) x 0 ^ snd ie) (combine (seq 0 (length e)) e)) = monoval e x.
Proof.
  revert x. induction e as [|k e IH]; intros [|t x] H; cbn [length] in H; try lia; try reflexivity.
  cbn [seq combine map fold_right fst snd nth monoval length]. f_equal. rewrite <- IH by lia.
  rewrite <- seq_shift. f_equal. generalize (seq 0 (length e)). clear. intros l. revert l. induction e as [|k e IH]; intros [|i l]; cbn [map combine]; try reflexivity. cbn [fst snd nth]. now rewrite IH.
Qed.
Lemma m_call_value m xi : (length (m_exponents m) <= length xi)%nat ->
  m_call m xi = Ok (m_factor m * monoval (m_exponents m) (map (fun t => (t + 1) / 2) xi)).
Proof.
  intros H. unfold m_call. cbv zeta. set (x := map _ xi).
  rewrite (mapM_Ok _ (fun ie => nth (fst ie) x 0 ^ snd ie)).
  - cbn [bind]. f_equal. f_equal. rewrite ProofTPCall.fold_left_Rmult, Rmult_1_l. apply monoval_prod. unfold x. now rewrite map_length.
  - intros (i, k) Hin. cbn [fst snd]. apply in_combine_l, in_seq in Hin. unfold getitem.
    rewrite (nth_error_nth' x 0) by (unfold x; rewrite map_length; lia). reflexivity.
Qed.
(** Evaluation: factor * prod ((xi_i + 1) / 2) ^ e_i; too few coordinates raise. *)
Theorem C16_call m xi :
  ((length (m_exponents m) <= length xi)%nat -> m_call m xi = Ok (m_factor m * monoval (m_exponents m) (map (fun t => (t + 1) / 2) xi)))
  /\ ((length xi < length (m_exponents m))%nat -> m_call m xi = Err IndexError).
Proof.
  split; [apply m_call_value|]. intros H. unfold m_call. cbv zeta. set (x := map _ xi). assert (Lx : length x = length xi) by apply map_length.
  assert (K : forall e s, (length x < s + length e)%nat -> (s <= length x)%nat ->
     mapM (fun ie => let* t := getitem x (fst ie) in Ok (t ^ snd ie)) (combine (seq s (length e)) e) = Err IndexError).
  { induction e as [|k e IH]; intros s H1 H2; cbn [length] in H1; [lia|]. cbn [length seq combine mapM fst snd].
    unfold getitem at 1. destruct (nth_error x s) as [t|] eqn:E; cbn [bind]; [|reflexivity].
    assert (s < length x)%nat by (apply nth_error_Some; congruence). rewrite (IH (S s)) by lia. reflexivity. }
  rewrite K by lia. reflexivity.
Qed.
Lemma fold_left_natmul l : forall a, fold_left Nat.mul l a = (a * fold_right Nat.mul 1 l)%nat.
Proof. induction l as [|x l IH]; intros a; cbn [fold_left fold_right]; [lia|]. rewrite IH. lia. Qed.
(** [simplex_integral] is the integral of the monomial over the bi-unit simplex, in
    every dimension and for every exponent tuple and factor. *)
Theorem C16_simplex m d : length (m_exponents m) = d ->
  is_int (Simplex d) (valR (m_call m)) (m_simplex_integral m).
Proof.
  intros L. assert (E : m_simplex_integral m = m_factor m * (2 ^ d * (prodfact (m_exponents m) / INR (fact (total (m_exponents m) + d))))).
  { unfold m_simplex_integral. cbv zeta. rewrite L, fold_left_natmul, Nat.mul_1_l. unfold prodfact. change (sum_nat (m_exponents m)) with (total (m_exponents m)).
    rewrite (Nat.add_comm d). unfold Rdiv. ring. }
  rewrite E. eapply is_int_ext; [|apply is_int_scal, dirichlet_ref, L].
  intros x Hx. cbv beta. unfold valR. rewrite m_call_value; [reflexivity|]. cbn [in_shape] in Hx. destruct Hx as (Hx & _). lia.
Qed.

(** Integral over the unit cube [0,1]^d, one coordinate at a time. *)
Fixpoint is_int_cube (d : nat) (f : list R -> R) (l : R) : Prop :=
  match d with
  | O => f [] = l
  | S d' => exists g : R -> R, (forall x, 0 < x < 1 -> is_int_cube d' (fun p => f (x :: p)) (g x)) /\ is_RInt g 0 1 l
  end.
Lemma is_int_cube_scal d : forall f l c, is_int_cube d f l -> is_int_cube d (fun p => c * f p) (c * l).
Proof.
  induction d as [|d IH]; intros f l c H; cbn [is_int_cube] in *; [congruence|]. destruct H as (g & H1 & H2).
  exists (fun x => c * g x). split; [|now apply isR_scal]. intros x Hx. apply (IH (fun p => f (x :: p))). auto.
Qed.
Lemma pow_int k : is_RInt (fun x => x ^ k) 0 1 (/ (INR k + 1)).
Proof.
  pose proof (pos_INR k). replace (/ (INR k + 1)) with (1 ^ S k / (INR k + 1) - 0 ^ S k / (INR k + 1)).
  2:{ rewrite pow1, pow_i by lia. field. lra. }
  apply (is_RInt_derive (fun x => x ^ S k / (INR k + 1)) (fun x => x ^ k)).
  - intros x _. auto_derive; [easy|]. replace (match k with O => 1 | S _ => INR k + 1 end) with (INR k + 1) by (destruct k; [cbn; ring|reflexivity]). field. lra.
  - intros x _. apply (ex_derive_continuous (fun t => t ^ k)). auto_derive. easy.
Qed.
Lemma hyper_val e : fold_left (fun integral n => integral * 1 / (INR n + 1)) e 1 = fold_right Rmult 1 (map (fun k => / (INR k + 1)) e).
Proof.
  assert (K : forall a, fold_left (fun integral n => integral * 1 / (INR n + 1)) e a = a * fold_right Rmult 1 (map (fun k => / (INR k + 1)) e)).
  { induction e as [|k e IH]; intros a; cbn [fold_left map fold_right]; [ring|]. rewrite IH. unfold Rdiv. ring. }
  rewrite K. ring.
Qed.
Lemma monoval_cube e : is_int_cube (length e) (monoval e) (fold_right Rmult 1 (map (fun k => / (INR k + 1)) e)).
Proof.
  induction e as [|k e IH]; cbn [length is_int_cube map fold_right monoval]; [reflexivity|].
  set (v := fold_right Rmult 1 (map (fun k0 => / (INR k0 + 1)) e)) in *. exists (fun x => x ^ k * v). split.
  - intros x _. now apply is_int_cube_scal.
  - rewrite Rmult_comm. eapply is_RInt_ext; [|apply (isR_scal (fun x => x ^ k) 0 1 v), pow_int]. intros x _. cbv beta. req. ring.
Qed.
(** [hypercube_integral] with factor 1 is the integral of prod x_i^e_i over [0,1]^d. *)
Theorem C16_hypercube e : is_int_cube (length e) (monoval e) (m_hypercube_integral (mkMono e 1)).
Proof. unfold m_hypercube_integral. cbn [m_exponents]. rewrite hyper_val. apply monoval_cube. Qed.
(** In terms of the callable: the integral over the cube [-1,1]^d. *)
Theorem C16_hypercube_call m d : length (m_exponents m) = d ->
  is_int (TPShape CHypercube d (repeat (Simplex 1) d)) (valR (m_call m)) (m_factor m * (2 ^ d * m_hypercube_integral m)).
Proof.
  intros L. apply is_int_ext with (fun x => m_factor m * monoval (m_exponents m) (map (fun t => (t + 1) / 2) x)).
  { intros x Hx. unfold valR. rewrite m_call_value; [reflexivity|]. apply in_shape_TP in Hx. rewrite L. clear L. revert x Hx.
    induction d as [|d IH]; intros x Hx; cbn [repeat in_shapes] in Hx; [lia|]. destruct Hx as (p & q & -> & Hp & Hq). apply IH in Hq.
    cbn [in_shape] in Hp. destruct Hp as (Hp & _). rewrite app_length. lia. }
  apply is_int_scal. unfold m_hypercube_integral. rewrite hyper_val. subst d. apply is_int_TP.
  induction (m_exponents m) as [|k e IH]; [cbn; ring|]. cbn [length repeat map fold_right].
  replace (2 ^ S (length e) * (/ (INR k + 1) * fold_right Rmult 1 (map (fun k0 => / (INR k0 + 1)) e)))
    with (2 * / (INR k + 1) * (2 ^ length e * fold_right Rmult 1 (map (fun k0 => / (INR k0 + 1)) e))) by (cbn [pow]; ring).
  eapply (is_ints_cons (Simplex 1) (repeat (Simplex 1) (length e)) (fun p => monoval [k] (map (fun t => (t + 1) / 2) p)) (fun q => monoval e (map (fun t => (t + 1) / 2) q))); [|exact IH|].
  - replace (2 * / (INR k + 1)) with (2 ^ 1 * (prodfact [k] / INR (fact (total [k] + 1)))); [apply (dirichlet_ref 1 [k] eq_refl)|].
    unfold prodfact, total. cbn [map fold_right]. rewrite Nat.mul_1_r, Nat.add_0_r, Nat.add_1_r, fact_simpl, mult_INR, S_INR.
    pose proof (INR_fact_lt_0 k). pose proof (pos_INR k). field. lra.
  - intros p q Hp _. cbn [in_shape] in Hp. destruct Hp as (Hp & _). destruct p as [|t [|]]; try discriminate. cbn [map app monoval]. ring.
Qed.
(** It does not scale with the factor, unlike [simplex_integral]. *)
Theorem C16_hypercube_factor_refuted : exists m, ~ is_int_cube (length (m_exponents m)) (fun x => m_factor m * monoval (m_exponents m) x) (m_hypercube_integral m).
Proof. exists (mkMono [] 2). cbn. lra. Qed.

(** [diff] is the partial derivative with respect to the scaled coordinate
    x_i = (xi_i + 1) / 2; negative indices count from the end. *)
Lemma monoval_upd e : forall x i, (i < length e)%nat -> (length e <= length x)%nat ->
  exists c, (forall s, monoval e (upd x i s) = c * s ^ nth i e 0%nat)
    /\ (forall k s, monoval (list_set e i k) (upd x i s) = c * s ^ k).
Proof.
  induction e as [|k e IH]; intros [|a x] i Hi Hx; cbn [length] in *; try lia. destruct i as [|i].
  - exists (monoval e x). cbn [upd nth list_set monoval]. split; intros; ring.
  - destruct (IH x i ltac:(lia) ltac:(lia)) as (c & H1 & H2). exists (a ^ k * c). cbn [upd nth list_set monoval].
    split; intros; rewrite ?H1, ?H2; ring.
Qed.
Lemma list_set_length {X} (l : list X) : forall i v, length (list_set l i v) = length l.
Proof. induction l as [|a l IH]; intros [|i] v; cbn; auto. Qed.
Lemma list_set_self (e : list nat) : forall i, list_set e i (nth i e 0%nat) = e.
Proof. induction e as [|k e IH]; intros [|i]; cbn [list_set nth]; auto. now rewrite IH. Qed.
Lemma py_index_spec n i k : py_index n i = Ok k -> (k < n)%nat /\ (i = Z.of_nat k \/ i = Z.of_nat k - Z.of_nat n)%Z.
Proof.
  unfold py_index. destruct ((0 <=? i) && (i <? Z.of_nat n))%Z eqn:E.
  - apply andb_true_iff in E. intros H. injection H as <-. destruct E as [E1 E2]. apply Z.leb_le in E1. apply Z.ltb_lt in E2. lia.
  - destruct ((- Z.of_nat n <=? i) && (i <? 0))%Z eqn:E'; [|discriminate]. apply andb_true_iff in E'. intros H. injection H as <-. destruct E' as [E1 E2]. apply Z.leb_le in E1. apply Z.ltb_lt in E2. lia.
Qed.
Definition scaled_value (m : monomial) (x : list R) : R := valR (m_call m) (map (fun t => 2 * t - 1) x).
Lemma scaled_value_eq m x : (length (m_exponents m) <= length x)%nat -> scaled_value m x = m_factor m * monoval (m_exponents m) x.
Proof.
  intros H. unfold scaled_value, valR. rewrite m_call_value by now rewrite map_length. rewrite map_map. f_equal. f_equal.
  transitivity (map (fun t : R => t) x); [|apply map_id]. apply map_ext. intros t. field.
Qed.
Theorem C16_diff m i m' x : m_diff m i = Ok m' -> length x = length (m_exponents m) ->
  exists k, (k < length x)%nat /\ (i = Z.of_nat k \/ i = Z.of_nat k - Z.of_nat (length x))%Z
    /\ length (m_exponents m') = length (m_exponents m)
    /\ is_derive (fun t => scaled_value m (upd x k t)) (nth k x 0) (scaled_value m' x).
Proof.
  unfold m_diff. destruct (py_index (length (m_exponents m)) i) as [k|] eqn:E; [|discriminate]. cbn [bind]. intros Em L.
  apply py_index_spec in E. rewrite L. exists k. split; [easy|]. split; [easy|]. destruct E as (Hk & _).
  destruct (monoval_upd (m_exponents m) x k Hk ltac:(lia)) as (c & H1 & H2).
  assert (HV : forall t, scaled_value m (upd x k t) = m_factor m * (c * t ^ nth k (m_exponents m) 0%nat)).
  { intros t. rewrite scaled_value_eq by (rewrite upd_length; lia). now rewrite H1. }
  destruct (Nat.eqb_spec (nth k (m_exponents m) 0%nat) 0) as [E0|E0].
  - injection Em as <-. cbn [m_exponents]. split; [easy|]. rewrite scaled_value_eq by (cbn [m_exponents]; lia). cbn [m_factor]. rewrite Rmult_0_l.
    apply (is_derive_ext (fun _ => m_factor m * c)); [intros t; rewrite HV, E0; cbn [pow]; req; ring|apply (is_derive_const (V := R_NormedModule))].
  - injection Em as <-. cbn [m_exponents]. rewrite list_set_length. split; [easy|].
    rewrite scaled_value_eq by (cbn [m_exponents]; rewrite list_set_length; lia). cbn [m_factor m_exponents].
    replace x with (upd x k (nth k x 0)) at 2 by apply upd_self. rewrite H2.
    destruct (nth k (m_exponents m) 0%nat) as [|p] eqn:Ep; [easy|]. replace (S p - 1)%nat with p by lia.
    apply (is_derive_ext (fun t => m_factor m * (c * t ^ S p))); [intros t; now rewrite HV|].
    auto_derive; [easy|]. rewrite S_INR. replace (match p with O => 1 | S _ => INR p + 1 end) with (INR p + 1) by (destruct p; [cbn; ring|reflexivity]). ring.
Qed.
Theorem C16_diff_defined m i : (forall k, (k < length (m_exponents m))%nat -> i = Z.of_nat k \/ i = (Z.of_nat k - Z.of_nat (length (m_exponents m)))%Z -> exists m', m_diff m i = Ok m')
  /\ ((i < - Z.of_nat (length (m_exponents m)) \/ Z.of_nat (length (m_exponents m)) <= i)%Z -> m_diff m i = Err IndexError).
Proof.
  set (n := length (m_exponents m)). split.
  - intros k Hk Hi. assert (E : exists j, py_index n i = Ok j).
    { unfold py_index. destruct ((0 <=? i) && (i <? Z.of_nat n))%Z eqn:E1; [eauto|]. destruct ((- Z.of_nat n <=? i) && (i <? 0))%Z eqn:E2; [eauto|].
      exfalso. apply andb_false_iff in E1. apply andb_false_iff in E2. rewrite Z.leb_gt, Z.ltb_ge in *. lia. }
    destruct E as (j & E). unfold m_diff. fold n. rewrite E. cbn [bind]. destruct (_ =? _)%nat; eauto.
  - intros H. unfold m_diff. fold n. unfold py_index.
    replace ((0 <=? i) && (i <? Z.of_nat n))%Z with false. 2:{ symmetry. apply andb_false_iff. rewrite Z.leb_gt, Z.ltb_ge. lia. }
    replace ((- Z.of_nat n <=? i) && (i <? 0))%Z with false; [reflexivity|]. symmetry. apply andb_false_iff. rewrite Z.leb_gt, Z.ltb_ge. lia.
Qed.
(** With respect to the argument of the callable the derivative is half of that. *)
Theorem C16_diff_argument_refuted : exists m m' x, m_diff m 0 = Ok m' /\ length x = length (m_exponents m)
  /\ ~ is_derive (fun t => valR (m_call m) (upd x 0 t)) (nth 0 x 0) (valR (m_call m') x).
Proof.
  exists (mkMono [1%nat] 1), (mkMono [0%nat] (1 * INR 1)), [0]. split; [reflexivity|]. split; [reflexivity|]. intros H.
  assert (H2 : is_derive (fun t => valR (m_call (mkMono [1%nat] 1)) (upd [0] 0 t)) (nth 0 [0] 0) (1 / 2)).
  { apply (is_derive_ext (fun t => (t + 1) / 2)).
    - intros t. unfold valR. rewrite m_call_value by (cbn; lia). cbn. field.
    - auto_derive; [easy|]. field. }
  apply is_derive_unique in H. apply is_derive_unique in H2. rewrite H2 in H. unfold valR in H. rewrite m_call_value in H by (cbn; lia). cbn in H. lra.
Qed.
Example C16_example : exists m', m_diff (mkMono [2; 0; 3]%nat 5) 2 = Ok m' /\ m_exponents m' = [2; 0; 2]%nat /\ m_factor m' = 15
  /\ m_simplex_integral (mkMono [1; 1]%nat 1) = 1 / 6.
Proof.
  eexists. split; [reflexivity|]. split; [reflexivity|]. split; [change (5 * (1 + 1 + 1) = 15); ring|]. unfold m_simplex_integral. cbn. field.
Qed.

Print Assumptions C15_barycentric_round_trip.
Print Assumptions C15_unit_round_trip.
Print Assumptions C15_vertices.
Print Assumptions C15_equilateral.
Print Assumptions C15_inverse.
Print Assumptions C15_inverse_defined.
Print Assumptions C15_jacobians.
Print Assumptions C16_simplex.
Print Assumptions C16_hypercube.
Print Assumptions C16_hypercube_call.
Print Assumptions C16_diff.
Print Assumptions C16_diff_defined.
