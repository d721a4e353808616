(** * C51, C60, C61: warp-and-blend nodes

    The reference data: [lgl_nodes] is the one-dimensional Legendre-Gauss-Lobatto node
    function (C38), a node tuple [t] of order [n] has the barycentric integer coordinates
    [full n t = (n - sum t) :: t], and barycentric coordinates of points are the ones of
    [unit_to_barycentric] (C15). *)
From Coq Require Import List Arith Bool ZArith Reals Lra Lia.
From Verif Require Import Py RSum PyToolsModel ModelNd ModelShapes ModelSpaces ModelNodes ModelModes ModelBasis ModelQuad ModelGauss ModelMatrices ModelTools ModelWarpBlend.
From Verif Require Import SpecGeometry EnumFacts ProofQuad ProofPoly1 ProofGauss3 ProofWarpBlend ProofWarpBlend2 ProofWarpBlend3 PropsGauss PropsLobatto PropsTools.
From Verif Require ModelFaces ModelGM.
Import ListNotations.
Local Open Scope R_scope.

(** What is assumed of the eigenvalue routine: the decomposition of the tridiagonal matrix
    behind the inner Gauss-Lobatto nodes is correct and, as documented for [eigh], the
    eigenvalues come in ascending order. *)
Definition good_eigh (eigh : eigh_t) (n : nat) : Prop := lobatto_eigh eigh 0 0 n /\ lobatto_ascending eigh n.

Definition tuples_ok (d n : nat) (ts : list (list nat)) : Prop := forall t, In t ts -> length t = d /\ (sum_nat t <= n)%nat.

Lemma default_tuples d n : (1 <= d)%nat -> wb_tuples d n None = Ok (gnitsam n d) /\ tuples_ok d n (gnitsam n d).
Proof.
  intros Hd. split; [unfold wb_tuples; destruct d; [lia|reflexivity]|]. intros t Ht. now apply gnitsam_in in Ht.
Qed.

Lemma setup eigh rj n : (1 <= n)%nat -> INR n < 2 * 10 ^ 10 -> good_eigh eigh n ->
  exists xs F, lgl_nodes eigh rj n None true = Ok (xs, false) /\ sym_points n xs /\ edge_warp n xs F
    /\ (forall outs, warp_factor eigh rj n outs true = Ok (map F outs)) /\ (forall x, F (- x) = - F x).
Proof.
  intros Hn Hb [H1 H2]. destruct (lgl_points eigh rj n None true Hn H1 H2 ltac:(now left)) as (xs & EX & SX).
  destruct (warp_poly eigh rj n xs _ Hn EX (proj1 SX)) as (g & PG & VG & WG). exists xs, (fun x => scale_warp x (g x)).
  split; [exact EX|]. split; [exact SX|]. split; [now apply warp_edge|]. split; [intros outs; exact (WG outs true)|].
  intros x. cbv beta. rewrite (warp_odd n xs g Hn SX PG VG). apply scale_warp_odd.
Qed.
(** Without a bound on the order *)
Lemma setup_any eigh rj n : (1 <= n)%nat -> good_eigh eigh n ->
  exists F, (forall outs, warp_factor eigh rj n outs true = Ok (map F outs)) /\ (forall x, F (- x) = - F x).
Proof.
  intros Hn [H1 H2]. destruct (lgl_points eigh rj n None true Hn H1 H2 ltac:(now left)) as (xs & EX & SX).
  destruct (warp_poly eigh rj n xs _ Hn EX (proj1 SX)) as (g & PG & VG & WG). exists (fun x => scale_warp x (g x)).
  split; [intros outs; exact (WG outs true)|]. intros x. cbv beta. rewrite (warp_odd n xs g Hn SX PG VG). apply scale_warp_odd.
Qed.
Lemma u2b_unit_of b : length b <> 0%nat -> list_sum b = 1 -> unit_to_barycentric (unit_of b) = b.
Proof.
  destruct b as [|b0 b]; [intros []; reflexivity|]. intros _ S. unfold unit_to_barycentric, unit_of. cbv zeta. cbn [tl]. rewrite map_map.
  assert (E : map (fun x => 1 / 2 * (2 * x - 1 + 1)) b = b) by (rewrite <- (map_id b) at 2; apply map_ext; intros; field).
  rewrite E. apply cons_eq; [|reflexivity]. rewrite fold_left_plus. unfold list_sum in *. cbn [fold_right] in S. lra.
Qed.
Lemma unit_of_cons b0 b : unit_of (b0 :: b) = map (fun c => 2 * c - 1) b. Proof. reflexivity. Qed.
Lemma nth_error_map_some {A B} (f : A -> B) l k x : nth_error l k = Some x -> nth_error (map f l) k = Some (f x).
Proof. revert k. induction l as [|y l IH]; intros [|k] H; try discriminate; cbn in *; [congruence|auto]. Qed.

(** ** C51 *)
(** Dimension one: the nodes are the Gauss-Lobatto points, -1 = x_0 < ... < x_n = 1,
    symmetric about 0. *)
Theorem C51_one_dim eigh rj n : (1 <= n)%nat -> good_eigh eigh n ->
  exists xs, lgl_nodes eigh rj n None true = Ok (xs, false)
    /\ warp_and_blend_nodes eigh rj 1 n None = Ok (mkPts 1 (map (fun x => [x]) xs))
    /\ length xs = S n /\ nth 0 xs 0 = -1 /\ nth n xs 0 = 1
    /\ (forall i j, (i < j <= n)%nat -> nth i xs 0 < nth j xs 0)
    /\ (forall i, (i <= n)%nat -> nth (n - i) xs 0 = - nth i xs 0).
Proof.
  intros Hn [H1 H2]. destruct (lgl_points eigh rj n None true Hn H1 H2 ltac:(now left)) as (xs & EX & SX). exists xs.
  split; [exact EX|]. split; [|exact SX].
  unfold warp_and_blend_nodes. destruct (Nat.eqb_spec n 0); [lia|]. cbn [negb] in EX. rewrite EX. reflexivity.
Qed.
(** ... and in the order asked for by the node tuples, whose number must fit *)
Theorem C51_one_dim_tuples eigh rj n ks xs : (1 <= n)%nat -> lgl_nodes eigh rj n None true = Ok (xs, false) -> length xs = S n ->
  (length ks = S n -> (forall k, In k ks -> (k <= n)%nat) ->
   warp_and_blend_nodes eigh rj 1 n (Some (map (fun k => [k]) ks)) = Ok (mkPts 1 (map (fun k => [nth k xs 0]) ks)))
  /\ (length ks <> S n -> warp_and_blend_nodes eigh rj 1 n (Some (map (fun k => [k]) ks)) = Err ValueError).
Proof.
  intros Hn EX LX. unfold warp_and_blend_nodes. destruct (Nat.eqb_spec n 0); [lia|]. rewrite EX. cbn [bind fst]. rewrite map_length.
  replace (n + 1)%nat with (S n) by lia. split.
  - intros L HK. rewrite L, Nat.eqb_refl. cbn [negb]. rewrite mapM_map, (mapM_ok _ (fun k => [nth k xs 0])); [reflexivity|].
    intros k Hk. specialize (HK k Hk). unfold wb_pick, getitem, flat_nodes. rewrite (nth_error_map_some (fun x => [x]) xs k (nth k xs 0)); [reflexivity|].
    apply nth_error_nth'. lia.
  - intros L. destruct (Nat.eqb_spec (length ks) (S n)); [easy|reflexivity].
Qed.

(** The triangle: for every blending parameter, a node whose tuple [a; b] lies on an edge
    (a = 0, b = 0 or a + b = n) is placed at the one-dimensional points x_a, x_b; the edge
    a + b = n is the hypotenuse, on which x_a + x_b = 0 since the points are symmetric.
    The vertices are kept (x_0 = -1, x_n = 1). *)
Theorem C51_triangle eigh rj n alpha node_tuples ts : (1 <= n)%nat -> INR n < 2 * 10 ^ 10 -> good_eigh eigh n ->
  wb_tuples 2 n node_tuples = Ok ts -> tuples_ok 2 n ts ->
  exists xs cols, lgl_nodes eigh rj n None true = Ok (xs, false) /\ sym_points n xs
    /\ warp_and_blend_2d_with eigh rj alpha n node_tuples = Ok (mkPts 2 cols) /\ length cols = length ts
    /\ forall k a b, nth_error ts k = Some [a; b] -> a = 0%nat \/ b = 0%nat \/ (a + b = n)%nat ->
        nth_error cols k = Some [nth a xs 0; nth b xs 0].
Proof.
  intros Hn Hb HG ET HT. destruct (setup eigh rj n Hn Hb HG) as (xs & F & EX & SX & EW & HF & FO).
  exists xs. eexists. split; [exact EX|]. split; [exact SX|].
  split; [apply (wb2_run eigh rj n F Hn HF FO alpha node_tuples ts ET); intros t Ht; now apply HT|]. split; [apply map_length|].
  intros k a b Hk HE. rewrite (nth_error_map_some _ ts k [a; b] Hk). apply f_equal.
  destruct (HT [a; b] (nth_error_In _ _ Hk)) as [_ HS]. unfold sum_nat in HS. cbn [fold_right] in HS.
  rewrite tuple_bary_full by (easy || (unfold sum_nat; cbn [fold_right]; lia)). unfold full, sum_nat. cbn [fold_right].
  unfold move2. rewrite (edge2 n xs F alpha Hn SX EW) by lia.
  unfold scaled, ModelFaces.vadd, ModelFaces.map2. cbn [map combine]. rewrite unit_of_cons. cbn [map]. apply cons_eq; [field|apply cons_eq; [field|reflexivity]]; apply not_0_INR; lia.
Qed.
(** ... in particular for the public function, with its own parameter *)
Theorem C51_triangle_nodes eigh rj n : (1 <= n)%nat -> INR n < 2 * 10 ^ 10 -> good_eigh eigh n ->
  exists xs cols, warp_and_blend_nodes eigh rj 1 n None = Ok (mkPts 1 (map (fun x => [x]) xs))
    /\ warp_and_blend_nodes eigh rj 2 n None = Ok (mkPts 2 cols) /\ length cols = space_dim (PN 2 n)
    /\ forall k a b, nth_error (gnitsam n 2) k = Some [a; b] -> a = 0%nat \/ b = 0%nat \/ (a + b = n)%nat ->
        nth_error cols k = Some [nth a xs 0; nth b xs 0].
Proof.
  intros Hn Hb HG. destruct (default_tuples 2 n ltac:(lia)) as [ET HT].
  destruct (C51_triangle eigh rj n (alpha_2d n) None _ Hn Hb HG ET HT) as (xs & cols & EX & SX & EC & LC & H).
  exists xs, cols. unfold warp_and_blend_nodes. destruct (Nat.eqb_spec n 0); [lia|]. split; [now rewrite EX|]. split; [exact EC|].
  split; [|exact H]. rewrite LC, gnitsam_length. cbn [space_dim]. reflexivity.
Qed.

(** The tetrahedron: a node on one of the six edges (two of the four barycentric
    coordinates vanish) is placed at the one-dimensional points. *)
Theorem C51_tetrahedron eigh rj n alpha node_tuples ts : (1 <= n)%nat -> INR n <= 10 ^ 8 -> good_eigh eigh n ->
  wb_tuples 3 n node_tuples = Ok ts -> tuples_ok 3 n ts ->
  exists xs cols, lgl_nodes eigh rj n None true = Ok (xs, false) /\ sym_points n xs
    /\ warp_and_blend_3d_with eigh rj alpha n node_tuples = Ok (mkPts 3 cols) /\ length cols = length ts
    /\ forall k a b c i j, nth_error ts k = Some [a; b; c] -> (i < j < 4)%nat ->
        nth i [(n - (a + b + c))%nat; a; b; c] 0%nat = 0%nat -> nth j [(n - (a + b + c))%nat; a; b; c] 0%nat = 0%nat ->
        nth_error cols k = Some [nth a xs 0; nth b xs 0; nth c xs 0].
Proof.
  intros Hn Hb HG ET HT. assert (Hb' : INR n < 2 * 10 ^ 10) by lra.
  destruct (setup eigh rj n Hn Hb' HG) as (xs & F & EX & SX & EW & HF & FO).
  exists xs. eexists. split; [exact EX|]. split; [exact SX|].
  split; [apply (wb3_run eigh rj n F Hn HF FO alpha node_tuples ts ET); intros t Ht; now apply HT|]. split; [apply map_length|].
  intros k a b c i j Hk Hij Zi Zj. rewrite (nth_error_map_some _ ts k [a; b; c] Hk). apply f_equal.
  destruct (HT [a; b; c] (nth_error_In _ _ Hk)) as [_ HS]. unfold sum_nat in HS. cbn [fold_right] in HS.
  rewrite tuple_bary_full by (easy || (unfold sum_nat; cbn [fold_right]; lia)). unfold full, sum_nat. cbn [fold_right].
  replace (a + (b + (c + 0)))%nat with (a + b + c)%nat by lia. unfold move3.
  rewrite (disp3_edge n xs F alpha Hn SX EW Hb (n - (a + b + c)) a b c ltac:(lia) i j) by (easy || lia).
  unfold scaled, edge_vec, ModelFaces.vadd, ModelFaces.map2. cbn [map combine]. rewrite unit_of_cons. cbn [map].
  apply cons_eq; [field|apply cons_eq; [field|apply cons_eq; [field|reflexivity]]]; apply not_0_INR; lia.
Qed.
Theorem C51_tetrahedron_nodes eigh rj n : (1 <= n)%nat -> INR n <= 10 ^ 8 -> good_eigh eigh n ->
  exists xs cols, warp_and_blend_nodes eigh rj 1 n None = Ok (mkPts 1 (map (fun x => [x]) xs))
    /\ warp_and_blend_nodes eigh rj 3 n None = Ok (mkPts 3 cols) /\ length cols = space_dim (PN 3 n)
    /\ forall k a b c i j, nth_error (gnitsam n 3) k = Some [a; b; c] -> (i < j < 4)%nat ->
        nth i [(n - (a + b + c))%nat; a; b; c] 0%nat = 0%nat -> nth j [(n - (a + b + c))%nat; a; b; c] 0%nat = 0%nat ->
        nth_error cols k = Some [nth a xs 0; nth b xs 0; nth c xs 0].
Proof.
  intros Hn Hb HG. destruct (default_tuples 3 n ltac:(lia)) as [ET HT].
  destruct (C51_tetrahedron eigh rj n (alpha_3d n) None _ Hn Hb HG ET HT) as (xs & cols & EX & SX & EC & LC & H).
  exists xs, cols. unfold warp_and_blend_nodes. destruct (Nat.eqb_spec n 0); [lia|]. split; [now rewrite EX|]. split; [exact EC|].
  split; [|exact H]. rewrite LC, gnitsam_length. cbn [space_dim]. reflexivity.
Qed.
(** The remaining cases of the public function *)
Theorem C51_refused eigh rj n : (1 <= n)%nat -> (forall d nts, (4 <= d)%nat -> warp_and_blend_nodes eigh rj d n nts = Err NotImplementedE)
  /\ (forall d ts, (d = 2 \/ d = 3)%nat -> length ts <> space_dim (PN d n) -> warp_and_blend_nodes eigh rj d n (Some ts) = Err ValueError)
  /\ forall nts, warp_and_blend_nodes eigh rj 0 n nts = Ok (mkPts 0 [[]]).
Proof.
  intros Hn. unfold warp_and_blend_nodes. destruct (Nat.eqb_spec n 0); [lia|]. split; [|split; [|reflexivity]].
  - intros d nts Hd. destruct d as [|[|[|[|d]]]]; try lia. reflexivity.
  - intros d ts [-> | ->] L; unfold warp_and_blend_nodes_2d, warp_and_blend_nodes_3d, warp_and_blend_2d_with, warp_and_blend_3d_with, wb_tuples;
      destruct (Nat.eqb_spec (length ts) (space_dim (PN 2 n))), (Nat.eqb_spec (length ts) (space_dim (PN 3 n))); easy.
Qed.

(** ** C60: the node sets have all symmetries of the simplex *)
Lemma bary_node2 F al n t : length t = 2%nat -> (forall x, F (- x) = - F x) ->
  unit_to_barycentric (unit_of (move2 F al (tuple_bary n t))) = move2 F al (tuple_bary n t).
Proof.
  intros L FO. assert (LB : length (tuple_bary n t) = 3%nat) by (rewrite tuple_bary_len; congruence).
  apply u2b_unit_of; [rewrite move2_len; easy|]. apply (move2_sum 1 F ltac:(lia) FO); [easy|apply tuple_bary_sum].
Qed.
Lemma move3_sum F al b : (forall x, F (- x) = - F x) -> length b = 4%nat -> list_sum b = 1 -> list_sum (move3 F al b) = 1.
Proof.
  intros FO L H. pose proof (disp3_sum 1 F ltac:(lia) FO al b) as D. pose proof (disp3_len F al b) as LD.
  assert (G : forall u v, length u = 4%nat -> length v = 4%nat -> list_sum (ModelFaces.vadd u v) = list_sum u + list_sum v).
  { intros [|u0 [|u1 [|u2 [|u3 [|]]]]] [|v0 [|v1 [|v2 [|v3 [|]]]]]; try discriminate. intros _ _. unfold list_sum, ModelFaces.vadd, ModelFaces.map2. cbn. ring. }
  unfold move3. rewrite G by easy. lra.
Qed.
Lemma bary_node3 F al n t : length t = 3%nat -> (forall x, F (- x) = - F x) ->
  unit_to_barycentric (unit_of (move3 F al (tuple_bary n t))) = move3 F al (tuple_bary n t).
Proof.
  intros L FO. assert (LB : length (tuple_bary n t) = 4%nat) by (rewrite tuple_bary_len; congruence).
  apply u2b_unit_of; [rewrite move3_len; easy|]. apply move3_sum; [easy|easy|apply tuple_bary_sum].
Qed.

(** Permuting the barycentric coordinates of a tuple permutes those of its node: for
    every permutation p of the vertices, and every order. *)
Theorem C60_triangle eigh rj n alpha node_tuples ts p : (1 <= n)%nat -> good_eigh eigh n ->
  wb_tuples 2 n node_tuples = Ok ts -> tuples_ok 2 n ts -> perm_on 3 p ->
  exists cols, warp_and_blend_2d_with eigh rj alpha n node_tuples = Ok (mkPts 2 cols)
    /\ forall k k' t t' x x', nth_error ts k = Some t -> nth_error ts k' = Some t' ->
        (n - sum_nat t')%nat :: t' = permuted 0%nat 3 p ((n - sum_nat t)%nat :: t) ->
        nth_error cols k = Some x -> nth_error cols k' = Some x' ->
        unit_to_barycentric x' = permuted 0 3 p (unit_to_barycentric x).
Proof.
  intros Hn HG ET HT Hp. destruct (setup_any eigh rj n Hn HG) as (F & HF & FO). eexists.
  split; [apply (wb2_run eigh rj n F Hn HF FO alpha node_tuples ts ET); intros t Ht; now apply HT|].
  intros k k' t t' x x' Hk Hk' HPT Hx Hx'. rewrite (nth_error_map_some _ ts k t Hk) in Hx. rewrite (nth_error_map_some _ ts k' t' Hk') in Hx'.
  injection Hx as <-. injection Hx' as <-. destruct (HT t (nth_error_In _ _ Hk)) as [L S]. destruct (HT t' (nth_error_In _ _ Hk')) as [L' S'].
  rewrite !bary_node2 by easy. rewrite !tuple_bary_full by easy. fold (full n t) (full n t') in HPT. rewrite HPT.
  rewrite scaled_permuted by (easy || (unfold full; cbn [length]; congruence)).
  apply move2_perm; [easy|]. unfold scaled, full. rewrite map_length. cbn [length]. congruence.
Qed.
Theorem C60_tetrahedron eigh rj n alpha node_tuples ts p : (1 <= n)%nat -> INR n <= 10 ^ 8 -> good_eigh eigh n ->
  wb_tuples 3 n node_tuples = Ok ts -> tuples_ok 3 n ts -> perm_on 4 p ->
  exists cols, warp_and_blend_3d_with eigh rj alpha n node_tuples = Ok (mkPts 3 cols)
    /\ forall k k' t t' x x', nth_error ts k = Some t -> nth_error ts k' = Some t' ->
        (n - sum_nat t')%nat :: t' = permuted 0%nat 4 p ((n - sum_nat t)%nat :: t) ->
        nth_error cols k = Some x -> nth_error cols k' = Some x' ->
        unit_to_barycentric x' = permuted 0 4 p (unit_to_barycentric x).
Proof.
  intros Hn Hb HG ET HT Hp. assert (Hb' : INR n < 2 * 10 ^ 10) by lra.
  destruct (setup eigh rj n Hn Hb' HG) as (xs & F & EX & SX & EW & HF & FO). eexists.
  split; [apply (wb3_run eigh rj n F Hn HF FO alpha node_tuples ts ET); intros t Ht; now apply HT|].
  intros k k' t t' x x' Hk Hk' HPT Hx Hx'. rewrite (nth_error_map_some _ ts k t Hk) in Hx. rewrite (nth_error_map_some _ ts k' t' Hk') in Hx'.
  injection Hx as <-. injection Hx' as <-. destruct (HT t (nth_error_In _ _ Hk)) as [L S]. destruct (HT t' (nth_error_In _ _ Hk')) as [L' S'].
  rewrite !bary_node3 by easy. rewrite !tuple_bary_full by easy. fold (full n t) (full n t') in HPT. rewrite HPT.
  rewrite scaled_permuted by (easy || (unfold full; cbn [length]; congruence)).
  apply (move3_perm n xs F alpha Hn SX EW Hb); [easy|unfold full; cbn [length]; congruence|].
  unfold full, sum_nat in *. cbn [fold_right]. lia.
Qed.
(** Without mentioning tuples: the nodes of the public function, as a set of points, are
    mapped to themselves by every symmetry of the triangle and of the tetrahedron. *)
Lemma sum_perm3 p c : perm_on 3 p -> length c = 3%nat -> sum_nat (permuted 0%nat 3 p c) = sum_nat c.
Proof.
  intros [H1 H2] L. destruct c as [|c0 [|c1 [|c2 [|]]]]; try discriminate.
  pose proof (H1 0 ltac:(lia))%nat. pose proof (H1 1 ltac:(lia))%nat. pose proof (H1 2 ltac:(lia))%nat.
  assert (p 0 <> p 1 /\ p 0 <> p 2 /\ p 1 <> p 2)%nat as (N1 & N2 & N3) by (repeat split; intros E; apply H2 in E; lia).
  unfold permuted. cbn [seq map]. clear H1 H2 L. generalize dependent (p 0%nat). generalize dependent (p 1%nat). generalize dependent (p 2%nat).
  intros a Ha b Hb' N3 e He N1 N2. unfold sum_nat.
  destruct a as [|[|[|a]]]; try lia; destruct b as [|[|[|b]]]; try lia; destruct e as [|[|[|e]]]; try lia; cbn [nth fold_right]; lia.
Qed.
Lemma permuted_tuple d n p t : perm_on (S d) p -> (forall c, length c = S d -> sum_nat (permuted 0%nat (S d) p c) = sum_nat c) ->
  In t (gnitsam n d) -> exists t', In t' (gnitsam n d) /\ (n - sum_nat t')%nat :: t' = permuted 0%nat (S d) p ((n - sum_nat t)%nat :: t).
Proof.
  intros Hp HS Ht. apply gnitsam_in in Ht. destruct Ht as [L S]. specialize (HS ((n - sum_nat t)%nat :: t) ltac:(cbn [length]; congruence)).
  pose proof (permuted_len 0%nat (Datatypes.S d) p ((n - sum_nat t)%nat :: t)) as LP.
  destruct (permuted 0%nat (Datatypes.S d) p ((n - sum_nat t)%nat :: t)) as [|c0 t'] eqn:E; [discriminate|]. exists t'.
  unfold sum_nat in HS, S |- *. cbn [fold_right] in HS. cbn [length] in LP.
  split; [apply gnitsam_in; unfold sum_nat; split; [congruence|lia]|]. f_equal. unfold sum_nat. lia.
Qed.
Theorem C60_triangle_set eigh rj n p : (1 <= n)%nat -> good_eigh eigh n -> perm_on 3 p ->
  exists cols, warp_and_blend_nodes eigh rj 2 n None = Ok (mkPts 2 cols)
    /\ forall x, In x cols -> exists y, In y cols /\ unit_to_barycentric y = permuted 0 3 p (unit_to_barycentric x).
Proof.
  intros Hn HG Hp. destruct (default_tuples 2 n ltac:(lia)) as [ET HT]. destruct (setup_any eigh rj n Hn HG) as (F & HF & FO).
  assert (R0 : warp_and_blend_nodes eigh rj 2 n None = warp_and_blend_2d_with eigh rj (alpha_2d n) n None) by (unfold warp_and_blend_nodes; destruct (Nat.eqb_spec n 0); [lia|reflexivity]).
  pose proof (wb2_run eigh rj n F Hn HF FO (alpha_2d n) None _ ET (fun t Ht => proj1 (HT t Ht))) as ER.
  destruct (C60_triangle eigh rj n (alpha_2d n) None _ p Hn HG ET HT Hp) as (cols & EC & H). exists cols. split; [congruence|].
  assert (cols = map (fun t => unit_of (move2 F (alpha_2d n) (tuple_bary n t))) (gnitsam n 2)) as EL by congruence. clear R0 ER EC.
  intros x Hx. rewrite EL in Hx. apply in_map_iff in Hx. destruct Hx as (t & Ex & Ht).
  destruct (permuted_tuple 2 n p t Hp (fun c => sum_perm3 p c Hp) Ht) as (t' & Ht' & HPT).
  destruct (In_nth_error _ _ Ht) as (k & Hk). destruct (In_nth_error _ _ Ht') as (k' & Hk').
  assert (X : nth_error cols k = Some x) by (rewrite EL, <- Ex; exact (nth_error_map_some (fun t => unit_of (move2 F (alpha_2d n) (tuple_bary n t))) _ k t Hk)).
  assert (X' : nth_error cols k' = Some (unit_of (move2 F (alpha_2d n) (tuple_bary n t')))) by (rewrite EL; exact (nth_error_map_some (fun t => unit_of (move2 F (alpha_2d n) (tuple_bary n t))) _ k' t' Hk')).
  eexists. split; [exact (nth_error_In _ _ X')|]. exact (H k k' t t' _ _ Hk Hk' HPT X X').
Qed.
Theorem C60_tetrahedron_set eigh rj n p : (1 <= n)%nat -> INR n <= 10 ^ 8 -> good_eigh eigh n -> perm_on 4 p ->
  exists cols, warp_and_blend_nodes eigh rj 3 n None = Ok (mkPts 3 cols)
    /\ forall x, In x cols -> exists y, In y cols /\ unit_to_barycentric y = permuted 0 4 p (unit_to_barycentric x).
Proof.
  intros Hn Hb HG Hp. destruct (default_tuples 3 n ltac:(lia)) as [ET HT]. destruct (setup_any eigh rj n Hn HG) as (F & HF & FO).
  assert (R0 : warp_and_blend_nodes eigh rj 3 n None = warp_and_blend_3d_with eigh rj (alpha_3d n) n None) by (unfold warp_and_blend_nodes; destruct (Nat.eqb_spec n 0); [lia|reflexivity]).
  pose proof (wb3_run eigh rj n F Hn HF FO (alpha_3d n) None _ ET (fun t Ht => proj1 (HT t Ht))) as ER.
  destruct (C60_tetrahedron eigh rj n (alpha_3d n) None _ p Hn Hb HG ET HT Hp) as (cols & EC & H). exists cols. split; [congruence|].
  assert (cols = map (fun t => unit_of (move3 F (alpha_3d n) (tuple_bary n t))) (gnitsam n 3)) as EL by congruence. clear R0 ER EC.
  intros x Hx. rewrite EL in Hx. apply in_map_iff in Hx. destruct Hx as (t & Ex & Ht).
  destruct (permuted_tuple 3 n p t Hp (fun c => sum_perm4 1 ltac:(lia) p c Hp) Ht) as (t' & Ht' & HPT).
  destruct (In_nth_error _ _ Ht) as (k & Hk). destruct (In_nth_error _ _ Ht') as (k' & Hk').
  assert (X : nth_error cols k = Some x) by (rewrite EL, <- Ex; exact (nth_error_map_some (fun t => unit_of (move3 F (alpha_3d n) (tuple_bary n t))) _ k t Hk)).
  assert (X' : nth_error cols k' = Some (unit_of (move3 F (alpha_3d n) (tuple_bary n t')))) by (rewrite EL; exact (nth_error_map_some (fun t => unit_of (move3 F (alpha_3d n) (tuple_bary n t))) _ k' t' Hk')).
  eexists. split; [exact (nth_error_In _ _ X')|]. exact (H k k' t t' _ _ Hk Hk' HPT X X').
Qed.

(** ** C61: the faces of the tetrahedron *)
Definition drop_at {A} (i : nat) (l : list A) : list A := firstn i l ++ skipn (S i) l.
Definition insert_at {A} (i : nat) (x : A) (l : list A) : list A := firstn i l ++ x :: skipn i l.

(** A node whose i-th barycentric integer coordinate is 0 lies on the face opposite to
    vertex i, and is there the triangle's node for the remaining three coordinates, made
    with the same blending parameter. *)
Theorem C61_faces eigh rj n alpha node_tuples ts : (1 <= n)%nat -> INR n <= 10 ^ 8 -> good_eigh eigh n ->
  wb_tuples 3 n node_tuples = Ok ts -> tuples_ok 3 n ts ->
  exists cols cols2, warp_and_blend_3d_with eigh rj alpha n node_tuples = Ok (mkPts 3 cols)
    /\ warp_and_blend_2d_with eigh rj alpha n None = Ok (mkPts 2 cols2)
    /\ forall k t i, nth_error ts k = Some t -> (i < 4)%nat -> nth i ((n - sum_nat t)%nat :: t) 0%nat = 0%nat ->
        exists k2 t2 x y, nth_error (gnitsam n 2) k2 = Some t2
          /\ (n - sum_nat t2)%nat :: t2 = drop_at i ((n - sum_nat t)%nat :: t)
          /\ nth_error cols k = Some x /\ nth_error cols2 k2 = Some y
          /\ unit_to_barycentric x = insert_at i 0 (unit_to_barycentric y).
Proof.
  intros Hn Hb HG ET HT. assert (Hb' : INR n < 2 * 10 ^ 10) by lra. destruct (default_tuples 2 n ltac:(lia)) as [ET2 HT2].
  destruct (setup eigh rj n Hn Hb' HG) as (xs & F & EX & SX & EW & HF & FO). eexists. eexists.
  split; [apply (wb3_run eigh rj n F Hn HF FO alpha node_tuples ts ET); intros t Ht; now apply HT|].
  split; [apply (wb2_run eigh rj n F Hn HF FO alpha None _ ET2); intros t Ht; now apply HT2|].
  intros k t i Hk Hi Zi. destruct (HT t (nth_error_In _ _ Hk)) as [L S].
  assert (EP : exists t2, length t2 = 2%nat /\ (n - sum_nat t2)%nat :: t2 = drop_at i ((n - sum_nat t)%nat :: t) /\ (sum_nat t2 <= n)%nat).
  { destruct t as [|a [|b [|c [|]]]]; try discriminate. unfold sum_nat in *. cbn [fold_right] in *.
    destruct i as [|[|[|[|i]]]]; try lia; cbn [nth] in Zi; unfold drop_at; cbn [firstn skipn app].
    - exists [b; c]. cbn [fold_right length]. split; [reflexivity|]. split; [apply f_equal2; [lia|reflexivity]|lia].
    - exists [b; c]. cbn [fold_right length]. split; [reflexivity|]. split; [apply f_equal2; [lia|reflexivity]|lia].
    - exists [a; c]. cbn [fold_right length]. split; [reflexivity|]. split; [apply f_equal2; [lia|reflexivity]|lia].
    - exists [a; b]. cbn [fold_right length]. split; [reflexivity|]. split; [apply f_equal2; [lia|reflexivity]|lia]. }
  destruct EP as (t2 & L2 & EF & S2). assert (I2 : In t2 (gnitsam n 2)) by now apply gnitsam_in.
  destruct (In_nth_error _ _ I2) as (k2 & Hk2). exists k2, t2. eexists. eexists.
  split; [exact Hk2|]. split; [exact EF|]. split; [exact (nth_error_map_some (fun t => unit_of (move3 F alpha (tuple_bary n t))) _ k t Hk)|].
  split; [exact (nth_error_map_some (fun t => unit_of (move2 F alpha (tuple_bary n t))) _ k2 t2 Hk2)|].
  rewrite bary_node3, bary_node2 by easy. rewrite !tuple_bary_full by easy. unfold full. rewrite EF.
  destruct t as [|a [|b [|c [|]]]]; try discriminate. unfold sum_nat in S |- *. cbn [fold_right] in S |- *. unfold sum_nat in Zi. cbn [fold_right] in Zi.
  set (z := (n - (a + (b + (c + 0))))%nat) in *. unfold move3. rewrite (disp3_face n xs F alpha Hn SX EW Hb z a b c ltac:(unfold z; lia) i Hi Zi).
  assert (Z0 : INR 0 / INR n = 0) by (change (INR 0) with 0; unfold Rdiv; ring).
  destruct i as [|[|[|[|i]]]]; try lia; cbn [nth] in Zi; rewrite Zi; unfold drop_at, insert_at, move2, fdisp, embed, sub3, scaled, ModelFaces.vadd, ModelFaces.map2;
    cbn [firstn skipn app map face_of seq Nat.eqb nth disp2 combine]; rewrite ?Z0; repeat (apply cons_eq; [ring|]); reflexivity.
Qed.

(** ** Non-vacuity *)
(** A correct, ascending decomposition exists for every order. *)
Lemma good_eigh_exists n : exists eigh, good_eigh eigh n.
Proof.
  destruct (C37_decomposition_exists (0 + 1) (0 + 1) ltac:(lra) ltac:(lra) ltac:(lra) (n - 2)) as (eigh & H1 & H2).
  exists eigh. split; intros _; assumption.
Qed.
(** Order 3 on the triangle: the nodes with tuples [0; 0], [3; 0], [1; 0] and [1; 2] lie on
    edges; their coordinates are the Lobatto points. *)
Example C51_example rj : exists eigh xs cols, good_eigh eigh 3
  /\ warp_and_blend_nodes eigh rj 1 3 None = Ok (mkPts 1 (map (fun x => [x]) xs))
  /\ warp_and_blend_nodes eigh rj 2 3 None = Ok (mkPts 2 cols)
  /\ length cols = 10%nat
  /\ nth_error cols 0 = Some [-1; -1] /\ nth_error cols 3 = Some [1; -1]
  /\ nth_error cols 1 = Some [nth 1 xs 0; -1] /\ nth_error cols 8 = Some [nth 1 xs 0; nth 2 xs 0].
Proof.
  destruct (good_eigh_exists 3) as (eigh & HG). exists eigh.
  assert (B3 : INR 3 < 2 * 10 ^ 10) by (cbn [INR pow]; lra).
  destruct (C51_triangle_nodes eigh rj 3 ltac:(lia) B3 HG) as (xs & cols & E1 & E2 & LC & H). exists xs, cols.
  destruct (C51_one_dim eigh rj 3 ltac:(lia) HG) as (xs' & _ & E1' & _ & X0 & Xn & _). rewrite E1' in E1.
  assert (EX : map (fun x => [x]) xs' = map (fun x => [x]) xs) by congruence.
  assert (xs' = xs) as -> by (apply (f_equal (map (fun l => nth 0 l 0))) in EX; rewrite !map_map in EX; cbn [nth] in EX; now rewrite !map_id in EX).
  split; [exact HG|]. split; [exact E1'|]. split; [exact E2|]. split; [exact LC|].
  rewrite (H 0%nat 0%nat 0%nat), (H 3%nat 3%nat 0%nat), (H 1%nat 1%nat 0%nat), (H 8%nat 1%nat 2%nat) by (reflexivity || lia).
  now rewrite X0, Xn.
Qed.
(** The rotation of the triangle and of three vertices of the tetrahedron *)
Example C60_example : perm_on 3 (fun i => ((i + 1) mod 3)%nat) /\ perm_on 4 (fun i => nth i [1; 2; 0; 3]%nat 0%nat)
  /\ permuted 0%nat 3 (fun i => ((i + 1) mod 3)%nat) [2; 1; 0]%nat = [1; 0; 2]%nat.
Proof.
  split; [|split; [|reflexivity]].
  - split; [intros i Hi; apply Nat.mod_upper_bound; lia|]. intros [|[|[|i]]] [|[|[|j]]] Hi Hj E; cbn in E; lia.
  - split; [intros [|[|[|[|i]]]] Hi; cbn; lia|]. intros [|[|[|[|i]]]] [|[|[|[|j]]]] Hi Hj E; cbn in E; lia.
Qed.
(** The tuple [1; 1; 1] of order 3 lies inside the face opposite to vertex 0. *)
Example C61_example : nth_error (gnitsam 3 3) 14 = Some [1; 1; 1]%nat /\ drop_at 0 ((3 - sum_nat [1; 1; 1]) :: [1; 1; 1])%nat = [1; 1; 1]%nat
  /\ insert_at 2 0 [1/2; 1/4; 1/4] = [1/2; 1/4; 0; 1/4].
Proof. repeat split; reflexivity. Qed.

Print Assumptions C51_one_dim.
Print Assumptions C51_one_dim_tuples.
Print Assumptions C51_triangle.
Print Assumptions C51_triangle_nodes.
Print Assumptions C51_tetrahedron.
Print Assumptions C51_tetrahedron_nodes.
Print Assumptions C51_refused.
Print Assumptions C60_triangle.
Print Assumptions C60_tetrahedron.
Print Assumptions C60_triangle_set.
Print Assumptions C60_tetrahedron_set.
Print Assumptions C61_faces.
