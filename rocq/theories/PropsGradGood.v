(** * C67: gradients and differentiation matrices are right at every node, collapsed vertices
    included; differentiation matrices of an element on its own nodes kill constants, commute
    and are nilpotent *)
From Coquelicot Require Import Coquelicot.
From Coq Require Import List Arith Bool ZArith Reals Lra Lia.
From Verif Require Import Py PyToolsModel RSum RField ModelLinAlg ProofLinAlg ModelNd ModelShapes ModelSpaces ModelNodes ModelModes ModelBasis ModelQuad
  ModelMatrices ModelWarpBlend ModelEdgeNodes EnumFacts SpecIndex SpecGeometry SpecIntegral SpecPoly SpecPartial SpecSpan ProofNodeTuples ProofTPCall ProofTPNodes ProofMonomial ProofBasisDeriv
  ProofPKDO ProofTPOrtho ProofSpaces ProofBasisIndex ProofEquispaced ProofQuad ProofMatrices ProofMatrices2 ProofDiffPerm ProofMatrices3 ProofExchange
  ProofWarpBlend PropsWarpBlend ProofUnisolvent PropsBasis PropsMatrices PropsUnisolvent ProofSpaceNodes ProofEdgeNodes4 PropsEdgeNodes ProofGradGood ProofGradGood2.
Import ListNotations.
Local Open Scope R_scope.

(** One of the three bases the code offers for a space. *)
Definition offered (s : fspace) (sh : shape) (b : basis) : Prop :=
  monomial_basis_for_space s sh = Ok b
  \/ (pn_dims 1 3 s /\ orthonormal_basis_for_space s sh = Ok b)
  \/ (pos_dims s /\ basis_for_space s sh = Ok b).
Lemma offered_basis s sh b : fits s sh -> offered s sh b -> basis_of s b.
Proof.
  intros HF [E|[[HP E]|[HP E]]].
  - destruct (mono_basis_of s sh HF) as (b' & E' & H). congruence.
  - destruct (onb_basis_of s sh HF HP) as (b' & E' & H). congruence.
  - destruct (basis_for_basis_of s sh HF HP) as (b' & E' & H). congruence.
Qed.

(** Values and gradients: on all points of the right length that are not strictly inside a
    tolerance strip (the collapsed vertices and edges themselves are fine), the k-th function
    returns the value and the k-th gradient the partial derivatives of one polynomial of the space. *)
Theorem C67_gradients s sh b : fits s sh -> offered s sh b ->
  exists fs gs phis, functions Rops b = Ok fs /\ gradients Rops b = Ok gs
    /\ length fs = space_dim s /\ length gs = space_dim s /\ length phis = space_dim s
    /\ forall k f g phi, nth_error fs k = Some f -> nth_error gs k = Some g -> nth_error phis k = Some phi ->
         in_space s phi /\ forall x, length x = spatial_dim s -> good_point b x ->
           f x = Ok (phi x) /\ exists c, g x = Ok c /\ has_partials phi x c.
Proof.
  intros HF HO. destruct (basis_gmodes s b (offered_basis s sh b HF HO)) as (ms & EF & EG & L & P & H).
  exists (map gf ms), (map gg ms), (map gp ms). split; [exact EF|]. split; [exact EG|]. rewrite !map_length. split; [exact L|]. split; [exact L|]. split; [exact L|].
  intros k f g phi H1 H2 H3. destruct (nth_error_map_inv _ _ _ _ H1) as (m & E1 & ->). destruct (nth_error_map_inv _ _ _ _ H2) as (m2 & E2 & ->).
  destruct (nth_error_map_inv _ _ _ _ H3) as (m3 & E3 & ->). assert (m2 = m) as -> by (assert (X := eq_trans (eq_sym E2) E1); injection X; auto).
  assert (m3 = m) as -> by (assert (X := eq_trans (eq_sym E3) E1); injection X; auto). clear E2 E3. rewrite Forall_forall in H, P. apply nth_error_In in E1.
  split; [now apply P|]. exact (H m E1).
Qed.

(** Differentiation from nodes that determine the space to any points, exact for the whole space. *)
Theorem C67_exact junk s sh b xs nodes : fits s sh -> offered s sh b -> determine s xs -> (forall x, In x xs -> good_point b x) ->
  nodes <> [] -> (forall x, In x nodes -> length x = spatial_dim s /\ good_point b x) ->
  exists Ds, diff_matrices junk b nodes (Some xs) = Ok Ds /\ length Ds = spatial_dim s
    /\ (forall D, In D Ds -> nrows D = length nodes /\ ncols D = length xs)
    /\ forall f, in_space s f -> forall i, (i < length nodes)%nat ->
         has_partials f (pt nodes i) (map (fun D => rsum (fun k => ent D i k * f (pt xs k)) (length xs)) Ds).
Proof. intros HF HO. apply good_differentiation. exact (offered_basis s sh b HF HO). Qed.

(** The degree of the space: the order of a simplex, summed over the factors of a product. *)
Theorem C67_degree s e : space_exp s e -> (fold_right Nat.add 0%nat e <= max_degree s)%nat.
Proof. exact (space_exp_total s e). Qed.

(** The matrices of an element on its own nodes ([from_nodes=None]). *)
Definition times (N : nat) (D : nmat) (u : nat -> R) : nat -> R := fun i => rsum (fun k => ent D i k * u k) N.
Definition operator_laws (s : fspace) (xs : list (list R)) (Ds : list nmat) : Prop :=
  let N := length xs in
  length Ds = spatial_dim s /\ (forall D, In D Ds -> nrows D = N /\ ncols D = N)
  /\ (forall f, in_space s f -> forall i, (i < N)%nat -> has_partials f (pt xs i) (map (fun D => times N D (fun k => f (pt xs k)) i) Ds))
  /\ (forall D i, In D Ds -> (i < N)%nat -> rsum (fun k => ent D i k) N = 0)
  /\ (forall D E u i, In D Ds -> In E Ds -> (i < N)%nat -> times N D (times N E u) i = times N E (times N D u) i)
  /\ (forall Es u i, Forall (fun E => In E Ds) Es -> (max_degree s < length Es)%nat -> (i < N)%nat -> fold_right (times N) u Es i = 0).

Theorem C67_own_nodes junk s sh b xs : fits s sh -> offered s sh b -> determine s xs -> (forall x, In x xs -> good_point b x) ->
  exists Ds, diff_matrices junk b xs None = Ok Ds /\ operator_laws s xs Ds.
Proof.
  intros HF HO HN HG.
  assert (Hne : xs <> []). { intros ->. destruct HN as (L & _). pose proof (space_dim_pos s). cbn in L. lia. }
  destruct (C67_exact junk s sh b xs xs HF HO HN HG Hne) as (Ds & E & LD & HR & HX). { intros x Hx. split; [now apply HN|now apply HG]. }
  exists Ds. split; [exact E|]. split; [exact LD|]. split; [exact HR|]. split; [exact HX|]. split; [|split].
  - intros D i HD Hi. apply In_nth_error in HD. destruct HD as (a & Ea). assert (X := own_const s sh xs Ds HF HN LD HX a D i Ea Hi). unfold app in X.
    rewrite <- X. apply rsum_ext. intros. ring.
  - intros D D' u i HD HD' Hi. apply In_nth_error in HD. destruct HD as (a & Ea). apply In_nth_error in HD'. destruct HD' as (b' & Eb).
    exact (own_commute s sh xs Ds HF HN LD HX a b' D D' u i Ea Eb Hi).
  - intros Es u i HE HL Hi. exact (own_nilpotent s sh xs Ds HF HN LD HX Es u i HE HL Hi).
Qed.

(** Equispaced and edge-clustered elements, with no hypothesis left on the nodes. *)
Theorem C67_equispaced junk s sh b : fits s sh -> orders_ok s -> offered s sh b ->
  exists p Ds, equispaced_nodes_for_space s sh = Ok p /\ diff_matrices junk b (pts_cols p) None = Ok Ds /\ operator_laws s (pts_cols p) Ds.
Proof.
  intros HF HO HB. destruct (equi_nodes s sh HF HO) as (p & E & HN). exists p.
  destruct (C67_own_nodes junk s sh b (pts_cols p) HF HB (nodes_of_space_nodes _ _ HN)) as (Ds & E1 & L1).
  { intros x Hx. exact (nodes_good s b _ (offered_basis s sh b HF HB) HN x Hx). }
  exists Ds. auto.
Qed.
Theorem C67_edge_clustered eigh rj junk s sh b : fits s sh -> edge_ok eigh s -> offered s sh b ->
  exists p Ds, edge_clustered_nodes_for_space eigh rj s sh = Ok p /\ diff_matrices junk b (pts_cols p) None = Ok Ds /\ operator_laws s (pts_cols p) Ds.
Proof.
  intros HF HO HB. destruct (edge_nodes eigh rj s sh HF HO) as (p & E & _ & HN). exists p.
  destruct (C67_own_nodes junk s sh b (pts_cols p) HF HB (nodes_of_space_nodes _ _ HN)) as (Ds & E1 & L1).
  { intros x Hx. exact (nodes_good s b _ (offered_basis s sh b HF HB) HN x Hx). }
  exists Ds. auto.
Qed.

(** ** Non-vacuity: the collapsed vertex of the triangle is a node and a good point; a prism element *)
Example C67_example_vertex : let b := SimplexONB 2 3 in
  good_point b [-1; 1] /\ exists p, equispaced_nodes_for_space (PN 2 3) (Simplex 2) = Ok p /\ In [-1; 1] (pts_cols p).
Proof.
  cbv zeta. split; [right; split; reflexivity|]. eexists. split; [reflexivity|]. cbn. repeat (first [left; f_equal; [|f_equal]; lra|right]).
Qed.
Example C67_example : exists b, let s := TPSpace STensorProduct [PN 2 3; PN 1 2] in let sh := TPShape CTensorProduct 3 [Simplex 2; Simplex 1] in
  fits s sh /\ orders_ok s /\ offered s sh b /\ max_degree s = 5%nat /\ space_dim s = 30%nat.
Proof.
  eexists. cbv zeta. split; [apply (fits_tp _ _ [PN 2 3; PN 1 2] [Simplex 2; Simplex 1]); repeat constructor|]. split.
  - constructor. repeat constructor; [replace (INR 3) with 3 by (cbn; ring)|replace (INR 2) with 2 by (cbn; ring)]; lra.
  - split; [right; left; split; [repeat constructor; lia|reflexivity]|]. split; reflexivity.
Qed.

Print Assumptions C67_gradients.
Print Assumptions C67_exact.
Print Assumptions C67_degree.
Print Assumptions C67_own_nodes.
Print Assumptions C67_equispaced.
Print Assumptions C67_edge_clustered.
