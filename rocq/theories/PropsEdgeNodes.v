(** * C66: node sets other than the equispaced ones: edge-clustered nodes up to order 4, tensor
    products of Gauss and Gauss-Lobatto points are unisolvent; operators on unisolvent nodes *)
From Coquelicot Require Import Coquelicot.
From Coq Require Import List Arith Bool ZArith Reals Lra Lia.
From Verif Require Import Py PyToolsModel RSum RField ModelLinAlg ProofLinAlg ModelNd ModelShapes ModelSpaces ModelNodes ModelModes ModelBasis ModelQuad ModelGauss
  ModelMatrices ModelTools ModelWarpBlend ModelEdgeNodes EnumFacts SpecIndex SpecGeometry SpecIntegral SpecPoly SpecPartial SpecSpan ProofNodeTuples ProofTPCall ProofTPNodes ProofMonomial ProofBasisDeriv
  ProofPKDO ProofTPOrtho ProofSpaces ProofBasisIndex ProofEquispaced ProofQuad ProofMatrices ProofMatrices2 ProofDiffPerm ProofMatrices3 ProofExchange
  ProofGauss3 ProofWarpBlend ProofWarpBlend2 ProofWarpBlend3 PropsGauss PropsLobatto PropsTools PropsWarpBlend ProofUnisolvent
  PropsBasis PropsMatrices PropsUnisolvent ProofSpaceNodes ProofDivide ProofEdgeNodes ProofEdgeNodes2 ProofEdgeNodes3 ProofEdgeNodes4.
Import ListNotations.
Local Open Scope R_scope.

(** ** Operators on arbitrary nodes *)
(** As many nodes as the space has dimensions, such that only the zero polynomial of the space vanishes on all of them: *)
Definition determine (s : fspace) (xs : list (list R)) : Prop :=
  length xs = space_dim s /\ (forall x, In x xs -> length x = spatial_dim s)
  /\ forall f, in_space s f -> (forall x, In x xs -> f x = 0) -> forall x, length x = spatial_dim s -> f x = 0.

(** every nodal data has exactly one interpolant, *)
Theorem C66_interpolation s sh xs (u : nat -> R) : fits s sh -> determine s xs ->
  exists f, in_space s f /\ (forall i, (i < length xs)%nat -> f (pt xs i) = u i)
    /\ forall g, in_space s g -> (forall i, (i < length xs)%nat -> g (pt xs i) = u i) -> forall x, length x = spatial_dim s -> g x = f x.
Proof. intros HF HN. exact (gen_interpolation s sh xs HN HF u). Qed.

(** the Vandermonde matrices of the bases of the code are invertible, *)
Theorem C66_bases s sh xs : fits s sh -> determine s xs ->
  (exists b fs, monomial_basis_for_space s sh = Ok b /\ functions Rops b = Ok fs /\ defined_on fs xs /\ unisolvent fs xs)
  /\ (pn_dims 1 3 s -> exists b, orthonormal_basis_for_space s sh = Ok b
       /\ ((forall x, In x xs -> good_point b x) -> exists fs, functions Rops b = Ok fs /\ defined_on fs xs /\ unisolvent fs xs))
  /\ (pos_dims s -> exists b, basis_for_space s sh = Ok b
       /\ ((forall x, In x xs -> good_point b x) -> exists fs, functions Rops b = Ok fs /\ defined_on fs xs /\ unisolvent fs xs)).
Proof. intros HF HN. exact (gen_bases s sh xs HN HF). Qed.

(** and the operator matrices of the orthonormal basis are computed without error and exact. *)
Theorem C66_operators s sh xs b : fits s sh -> determine s xs -> pn_dims 1 3 s -> orthonormal_basis_for_space s sh = Ok b ->
  (forall x, In x xs -> good_point b x) ->
  (forall new ls, (forall x, In x new -> length x = spatial_dim s /\ good_point b x) ->
    exists fs M, functions Rops b = Ok fs /\ resampling_matrix fs new xs ls = Ok M /\ nrows M = length new /\ ncols M = length xs
      /\ forall f, in_space s f -> forall i, (i < length new)%nat -> rsum (fun k => ent M i k * f (pt xs k)) (length xs) = f (pt new i))
  /\ (forall junk nodes, nodes <> [] -> (forall x, In x nodes -> length x = spatial_dim s /\ off_strips b x) ->
    exists Ds, diff_matrices junk b nodes (Some xs) = Ok Ds /\ length Ds = spatial_dim s
      /\ forall f, in_space s f -> forall i, (i < length nodes)%nat ->
           has_partials f (pt nodes i) (map (fun D => rsum (fun k => ent D i k * f (pt xs k)) (length xs)) Ds))
  /\ exists M, mass_matrix (inl b) xs = Ok M
    /\ forall f g, in_space s f -> in_space s g ->
         is_int sh (fun x => f x * g x) (rsum (fun i => f (pt xs i) * rsum (fun j => ent M i j * g (pt xs j)) (length xs)) (length xs)).
Proof.
  intros HF HN HP Eb HG. split; [|split].
  - intros new ls. exact (gen_resampling s sh xs HN HF HP b Eb HG new ls).
  - intros junk nodes. exact (gen_differentiation s sh xs HN HF HP b Eb HG junk nodes).
  - exact (gen_mass s sh xs HN HF HP b Eb HG).
Qed.

(** ** Edge-clustered nodes *)
(** Warp-and-blend nodes of any order on the interval and up to order 4 on the triangle and the
    tetrahedron, equidistant nodes in dimension 0 and from dimension 4 on, and tensor products of
    these: the nodes determine the polynomials of the space and avoid the tolerance strips of the
    orthonormal basis. *)
Theorem C66_edge_clustered eigh rj s sh : fits s sh -> edge_ok eigh s ->
  exists p, edge_clustered_nodes_for_space eigh rj s sh = Ok p /\ pts_dim p = spatial_dim s
    /\ NoDup (pts_cols p) /\ determine s (pts_cols p)
    /\ (pn_dims 1 3 s -> exists b, orthonormal_basis_for_space s sh = Ok b /\ forall x, In x (pts_cols p) -> good_point b x).
Proof.
  intros HF HO. destruct (edge_nodes eigh rj s sh HF HO) as (p & E & D & HN). exists p. split; [easy|]. split; [easy|]. split; [eapply nodes_NoDup; eauto|]. split; [exact (nodes_of_space_nodes _ _ HN)|].
  intros HP. destruct (onb_basis_of s sh HF HP) as (b & Eb & Hb). exists b. split; [easy|]. intros x Hx. exact (nodes_good s b _ Hb HN x Hx).
Qed.

(** Hence the operators of C66_operators on edge-clustered nodes, with no hypothesis on the nodes. *)
Theorem C66_edge_operators eigh rj s sh : fits s sh -> edge_ok eigh s -> pn_dims 1 3 s ->
  exists p b fs M, edge_clustered_nodes_for_space eigh rj s sh = Ok p /\ orthonormal_basis_for_space s sh = Ok b /\ functions Rops b = Ok fs
    /\ unisolvent fs (pts_cols p)
    /\ (forall new ls, (forall x, In x new -> length x = spatial_dim s /\ good_point b x) ->
        exists Q, resampling_matrix fs new (pts_cols p) ls = Ok Q
          /\ forall f, in_space s f -> forall i, (i < length new)%nat -> rsum (fun k => ent Q i k * f (pt (pts_cols p) k)) (length (pts_cols p)) = f (pt new i))
    /\ mass_matrix (inl b) (pts_cols p) = Ok M
    /\ forall f g, in_space s f -> in_space s g ->
         is_int sh (fun x => f x * g x)
           (rsum (fun i => f (pt (pts_cols p) i) * rsum (fun j => ent M i j * g (pt (pts_cols p) j)) (length (pts_cols p))) (length (pts_cols p))).
Proof.
  intros HF HO HP. destruct (C66_edge_clustered eigh rj s sh HF HO) as (p & E & _ & _ & HD & HG). destruct (HG HP) as (b & Eb & Hg).
  destruct (C66_operators s sh (pts_cols p) b HF HD HP Eb Hg) as (HR & _ & M & EM & HM).
  destruct (C66_bases s sh (pts_cols p) HF HD) as (_ & HB & _). destruct (HB HP) as (b' & Eb' & HU). assert (b' = b) by congruence. subst b'. destruct (HU Hg) as (fs & Ef & _ & HU').
  exists p, b, fs, M. split; [easy|]. split; [easy|]. split; [easy|]. split; [easy|]. split; [|split; [exact EM|exact HM]].
  intros new ls Hnew. destruct (HR new ls Hnew) as (fs' & Q & Ef' & EQ & _ & _ & HQ). assert (fs' = fs) by congruence. subst fs'. exists Q. split; [exact EQ|exact HQ].
Qed.

(** For every order, and whatever the blending parameter, unisolvence of the triangle's nodes is a
    question about the interior ones only: if these avoid the three edge lines, the nodes determine
    the polynomials of degree n exactly if the interior ones determine those of degree n - 3. *)
Theorem C66_triangle_interior eigh rj n alpha : (3 <= n)%nat -> INR n < 2 * 10 ^ 10 -> good_eigh eigh n ->
  exists cols, warp_and_blend_2d_with eigh rj alpha n None = Ok (mkPts 2 cols)
    /\ let inner := fun x => exists k a b, nth_error (gnitsam n 2) k = Some [a; b] /\ (1 <= a)%nat /\ (1 <= b)%nat /\ (a + b < n)%nat /\ nth_error cols k = Some x in
       (forall x, inner x -> nth 0 x 0 <> -1 /\ nth 1 x 0 <> -1 /\ nth 0 x 0 + nth 1 x 0 <> 0) ->
       (forall f, is_poly 2 n f -> (forall x, In x cols -> f x = 0) -> forall x, length x = 2%nat -> f x = 0)
       <-> (forall g, is_poly 2 (n - 3) g -> (forall x, inner x -> g x = 0) -> forall x, length x = 2%nat -> g x = 0).
Proof.
  intros Hn Hb HG. destruct (setup eigh rj n ltac:(lia) Hb HG) as (xs & F & EX & SX & EW & HF & FO). destruct (default_tuples 2 n ltac:(lia)) as [ET HT].
  exists (map (node2 n F alpha) (gnitsam n 2)). split; [exact (wb2_run eigh rj n F ltac:(lia) HF FO alpha None _ ET (fun t Ht => proj1 (HT t Ht)))|].
  intros inner HI.
  assert (EI : forall t, interior2 n t -> inner (node2 n F alpha t)).
  { intros t (a & b & -> & A1 & B1 & AB). assert (I0 : In [a; b] (gnitsam n 2)) by (apply gnitsam_in; split; [reflexivity|unfold sum_nat; cbn [fold_right]; lia]).
    destruct (In_nth_error _ _ I0) as (k & Hk). exists k, a, b. split; [exact Hk|]. repeat split; auto. exact (map_nth_error (node2 n F alpha) k _ Hk). }
  assert (IE : forall x, inner x -> exists t, interior2 n t /\ x = node2 n F alpha t).
  { intros x (k & a & b & Hk & A1 & B1 & AB & Hx). exists [a; b]. split; [now exists a, b|]. assert (X := map_nth_error (node2 n F alpha) k _ Hk). congruence. }
  assert (R0 := tri_reduce n xs F alpha ltac:(lia) SX EW Hn). unfold poly_unisolvent in R0. rewrite R0.
  - split; intros H g Hg HZ; apply H; auto. intros x Hx. destruct (IE x Hx) as (t & Ht & ->). now apply HZ.
  - intros t Ht. destruct (HI _ (EI t Ht)) as (N1 & N2 & N3). repeat split; lra.
Qed.

(** ** Gauss and Gauss-Lobatto tensor product nodes *)
Theorem C66_gauss_tensor eigh rj c dims n : eigh_at eigh 0 0 n ->
  exists xs, length xs = S n /\ NoDup xs /\ (forall x, In x xs -> -1 < x < 1)
    /\ legendre_gauss_tensor_product_nodes eigh rj dims n = Ok (mkPts dims (tp_tuples (repeat (map (fun x => [x]) xs) dims)))
    /\ determine (TPSpace c (repeat (PN 1 n) dims)) (tp_tuples (repeat (map (fun x => [x]) xs) dims)).
Proof.
  intros HE. assert (GP : gauss_params 0 0). { pose proof small_ok. split; [lra|]. split; [lra|]. right. split; [left|]; rewrite Rabs_right by lra; lra. }
  destruct (C37_rule 0 0 n eigh rj None true GP (fun _ => HE) ltac:(now left)) as (q & Eq & Ln & ND & HI & _ & _ & _ & QD & _).
  set (xs := map (fun l => nth 0 l 0) (q_nodes q)).
  assert (EX : q_nodes q = map (fun x => [x]) xs).
  { unfold xs. rewrite map_map. rewrite <- (map_id (q_nodes q)) at 1. apply map_ext_in. intros l Hl. destruct (HI l Hl) as (x & -> & _). reflexivity. }
  assert (LX : length xs = S n) by (unfold xs; rewrite map_length; lia).
  assert (NX : NoDup xs) by (rewrite EX in ND; exact (NoDup_map_inv _ _ ND)).
  exists xs. split; [exact LX|]. split; [exact NX|]. split.
  - intros x Hx. assert (In [x] (q_nodes q)) by (rewrite EX; apply in_map_iff; eauto). destruct (HI [x] H) as (y & E & B). injection E as ->. exact B.
  - split; [apply (gauss_tensor eigh rj dims n q xs Eq QD EX); intros K; rewrite K in LX; discriminate|]. apply nodes_of_space_nodes. now apply tp_line_nodes.
Qed.
Theorem C66_lobatto_tensor eigh rj c dims n : good_eigh eigh n ->
  exists xs, length xs = S n /\ NoDup xs /\ (n = 0%nat -> xs = [0]) /\ ((1 <= n)%nat -> nth 0 xs 0 = -1 /\ nth n xs 0 = 1)
    /\ legendre_gauss_lobatto_tensor_product_nodes eigh rj dims n = Ok (mkPts dims (tp_tuples (repeat (map (fun x => [x]) xs) dims)))
    /\ determine (TPSpace c (repeat (PN 1 n) dims)) (tp_tuples (repeat (map (fun x => [x]) xs) dims)).
Proof.
  intros HG. destruct (Nat.eq_dec n 0) as [->|Hn].
  - exists [0]. assert (ND : NoDup [0]) by (constructor; [intros []|constructor]). split; [reflexivity|]. split; [exact ND|]. split; [reflexivity|]. split; [intros; lia|].
    split; [apply (lobatto_tensor eigh rj dims 0 [0] true); [reflexivity|discriminate]|]. apply nodes_of_space_nodes. now apply tp_line_nodes.
  - destruct (C51_one_dim eigh rj n ltac:(lia) HG) as (xs & E & _ & L1 & X0 & Xn & HI & _). exists xs.
    assert (ND : NoDup xs).
    { apply (proj2 (NoDup_nth xs 0)). intros i j Hi Hj Eij. destruct (Nat.lt_total i j) as [K|[K|K]]; [specialize (HI i j ltac:(lia)); lra|easy|specialize (HI j i ltac:(lia)); lra]. }
    split; [exact L1|]. split; [exact ND|]. split; [lia|]. split; [easy|]. split; [|apply nodes_of_space_nodes; now apply tp_line_nodes].
    apply (lobatto_tensor eigh rj dims n xs false E). intros K. rewrite K in L1. discriminate.
Qed.

(** ** Refusals *)
Theorem C66_refused eigh rj d n sd c bs c' shbs :
  (d <> sd -> edge_clustered_nodes_for_space eigh rj (PN d n) (Simplex sd) = Err ValueError)
  /\ edge_clustered_nodes_for_space eigh rj (PN d n) (TPShape c' sd shbs) = Err NotImplementedE
  /\ edge_clustered_nodes_for_space eigh rj (TPSpace c bs) (Simplex sd) = Err NotImplementedE
  /\ (spatial_dim (TPSpace c bs) <> sd -> edge_clustered_nodes_for_space eigh rj (TPSpace c bs) (TPShape c' sd shbs) = Err ValueError).
Proof.
  split; [|split; [|split]]; try reflexivity.
  - intros H. cbn [edge_clustered_nodes_for_space]. destruct (Nat.eqb_spec d sd); [lia|reflexivity].
  - intros H. cbn [edge_clustered_nodes_for_space]. destruct (Nat.eqb_spec (spatial_dim (TPSpace c bs)) sd); [lia|reflexivity].
Qed.

(** ** Non-vacuity: order 3 on a prism over a triangle, and order 4 on the tetrahedron *)
Example C66_example : exists eigh sh, let s := TPSpace STensorProduct [PN 2 3; PN 1 3] in
  fits s sh /\ edge_ok eigh s /\ pn_dims 1 3 s /\ space_dim s = 40%nat.
Proof.
  destruct (good_eigh_exists 3) as (eigh & HG). exists eigh, (TPShape CTensorProduct 3 [Simplex 2; Simplex 1]). cbv zeta.
  assert (IN : INR 3 < 2 * 10 ^ 10) by (replace (INR 3) with 3 by (cbn; ring); lra).
  split; [apply (fits_tp _ _ [PN 2 3; PN 1 3] [Simplex 2; Simplex 1]); repeat constructor|]. split; [|split; [repeat constructor; lia|reflexivity]].
  constructor. constructor; [constructor; auto; intros; lia|]. constructor; [constructor; auto; intros; lia|constructor].
Qed.
Example C66_example_tet : exists eigh, fits (PN 3 4) (Simplex 3) /\ edge_ok eigh (PN 3 4) /\ pn_dims 1 3 (PN 3 4).
Proof.
  destruct (good_eigh_exists 4) as (eigh & HG). exists eigh. split; [constructor|]. split; [|constructor; lia].
  constructor; [replace (INR 4) with 4 by (cbn; ring); lra|intros; lia|auto].
Qed.
Example C66_example_gauss n : exists eigh, eigh_at eigh 0 0 n.
Proof. destruct (C37_decomposition_exists 0 0 ltac:(lra) ltac:(lra) ltac:(lra) n) as (eigh & H1 & _). now exists eigh. Qed.

Print Assumptions C66_interpolation.
Print Assumptions C66_bases.
Print Assumptions C66_operators.
Print Assumptions C66_edge_clustered.
Print Assumptions C66_edge_operators.
Print Assumptions C66_triangle_interior.
Print Assumptions C66_gauss_tensor.
Print Assumptions C66_lobatto_tensor.
Print Assumptions C66_refused.
