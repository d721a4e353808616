(** * C76: the equispaced nodes computed in double precision *)
From Flocq Require Import Core.
From Coquelicot Require Import Coquelicot.
From Coq Require Import List Arith Bool ZArith Reals Lra Lia.
From Verif Require Import Py PyToolsModel RSum RField ModelLinAlg ProofLinAlg ModelNd ModelShapes ModelSpaces ModelNodes ModelModes ModelBasis ModelQuad ModelGauss
  ModelMatrices ModelTools ModelWarpBlend ModelEdgeNodes EnumFacts SpecIndex SpecGeometry SpecIntegral SpecPoly SpecPartial SpecSpan ProofNodeTuples ProofTPCall ProofTPNodes ProofMonomial ProofBasisDeriv
  ProofPKDO ProofTPOrtho ProofSpaces ProofBasisIndex ProofEquispaced ProofQuad ProofMatrices ProofMatrices2 ProofDiffPerm ProofMatrices3 ProofExchange
  ProofUnisolvent PropsBasis PropsMatrices PropsUnisolvent ProofSpaceNodes PropsNodes PropsEdgeNodes ProofGradGood ProofGradGood2 PropsGradGood ModelFloat ProofFloat ProofFloat2 ProofFloat3.
Import ListNotations.
Local Open Scope R_scope.

(** ** One coordinate: [t / n * 2 - 1] with every operation rounded to binary64.  The result stays in
    [-1, 1], the end points are exact, the order of the indices is kept and the error is at most 3 * 2^-53. *)
Theorem C76_coordinate n t : (0 < n)%nat -> (t <= n)%nat ->
  -1 <= node64 n t <= 1
  /\ node64 n 0 = -1 /\ node64 n n = 1
  /\ (forall s, (s <= t)%nat -> node64 n s <= node64 n t)
  /\ Rabs (node64 n t - (2 * INR t / INR n - 1)) <= 3 / 2 ^ 53.
Proof.
  intros Hn Ht. split; [now apply node64_range|]. split; [now apply node64_0|]. split; [now apply node64_n|]. split; [intros s Hs; now apply node64_mono|].
  replace (2 * INR t / INR n - 1) with (INR t / INR n * 2 - 1) by (unfold Rdiv; ring). exact (node64_err n Hn t Ht).
Qed.
(** Nodes of different indices stay different up to order 2^51, *)
Theorem C76_distinct n s t : (Z.of_nat n <= 2 ^ 51)%Z -> (s < t <= n)%nat -> node64 n s < node64 n t.
Proof. intros HN H. apply node64_lt; [lia|easy|easy]. Qed.
(** and for orders that are powers of two no rounding takes place. *)
Theorem C76_power_of_two k t : (k <= 52)%nat -> (t <= 2 ^ k)%nat -> node64 (2 ^ k) t = 2 * INR t / INR (2 ^ k) - 1.
Proof.
  intros Hk Ht. assert (0 < 2 ^ k)%nat by (apply Nat.neq_0_lt_0, Nat.pow_nonzero; lia).
  rewrite (node64_exact (2 ^ k) H k t eq_refl Hk Ht). unfold Rdiv. ring.
Qed.

(** ** The nodes of a space: they are computed, distinct, in the cube [-1, 1]^d, each coordinate within 3 * 2^-53 of
    the exact node at the same position, and still determine the polynomials of the space. *)
Theorem C76_space s sh : fits s sh -> orders64 s ->
  exists p q, equispaced_nodes_for_space64 s sh = Ok p /\ equispaced_nodes_for_space s sh = Ok q
    /\ pts_dim p = spatial_dim s /\ length (pts_cols p) = length (pts_cols q)
    /\ NoDup (pts_cols p) /\ determine s (pts_cols p)
    /\ forall i x, nth_error (pts_cols p) i = Some x ->
         length x = spatial_dim s
         /\ exists y, nth_error (pts_cols q) i = Some y /\ length y = spatial_dim s
         /\ forall j, (j < spatial_dim s)%nat -> -1 <= nth j x 0 <= 1 /\ Rabs (nth j x 0 - nth j y 0) <= 3 / 2 ^ 53.
Proof.
  intros HF HO. destruct (equi64 s sh HF HO) as (p & q & E1 & E2 & D & (N & W & ND & CL & RG)). exists p, q.
  split; [easy|]. split; [easy|]. split; [easy|]. split; [eapply EnumFacts.Forall2_length; exact CL|]. split; [easy|]. split; [exact N|].
  intros i x Hx. destruct N as (_ & LD & _). assert (Lx : length x = spatial_dim s) by (apply LD; eapply nth_error_In; exact Hx). split; [easy|].
  rewrite Forall_forall in RG. assert (RX := RG x (nth_error_In _ _ Hx)). clear -CL Hx Lx RX.
  revert i Hx. induction CL as [|a b l m H CL IH]; intros [|i] Hx; cbn [nth_error] in *; try discriminate; [|exact (IH i Hx)].
  exists b. split; [reflexivity|]. assert (a = x) by congruence. subst a. split; [rewrite <- Lx; symmetry; eapply EnumFacts.Forall2_length; exact H|].
  intros j Hj. split; [rewrite Forall_forall in RX; apply RX, nth_In; lia|].
  rewrite <- Lx in Hj. clear -H Hj. revert j Hj. unfold within in H. change (3 / 2 ^ 53) with (3 * u64). induction H as [|c d l m H1 H IH]; intros [|j] Hj; cbn [length nth] in *; try lia; [exact H1|apply IH; lia].
Qed.

(** On a simplex the nodes leave the simplex by at most 3 d / 2^53 (sum of the coordinates; the other
    constraints hold exactly). *)
Theorem C76_simplex d n : (Z.of_nat n <= 2 ^ 51)%Z ->
  exists p, equispaced_nodes_for_space64 (PN d n) (Simplex d) = Ok p
    /\ forall x, In x (pts_cols p) -> length x = d /\ (forall c, In c x -> -1 <= c <= 1) /\ fold_right Rplus 0 x <= 2 - INR d + 3 * INR d / 2 ^ 53.
Proof.
  intros HN. destruct (pn64 d n HN) as (p & q & E1 & E2 & _ & (N & W & _ & CL & RG)). exists p. split; [easy|]. intros x Hx. destruct N as (_ & LD & _). specialize (LD x Hx). cbn [spatial_dim] in LD.
  split; [easy|]. rewrite Forall_forall in RG. specialize (RG x Hx). split; [rewrite Forall_forall in RG; exact RG|].
  destruct (C13_equispaced_simplex d n) as (q' & ts & E3 & _ & _ & _ & _ & HS & _). assert (q' = q) by congruence. subst q'. rewrite Forall_forall in HS.
  assert (exists y, In y (pts_cols q) /\ within (3 * u64) x y) as (y & Hy & HW).
  { clear -CL Hx. induction CL as [|a b l m H CL IH]; [destruct Hx|]. destruct Hx as [<-|Hx]; [exists b; split; [now left|easy]|]. destruct (IH Hx) as (y & A & B). exists y. split; [now right|easy]. }
  destruct (HS y Hy) as (Ly & _ & HYS). unfold list_sum in HYS.
  assert (fold_right Rplus 0 x <= fold_right Rplus 0 y + INR (length x) * (3 * u64)).
  { clear -HW. induction HW as [|a b x y H HW IH]; [cbn; lra|]. cbn [fold_right]. cbn [length]. rewrite S_INR. apply Rabs_le_between in H. lra. }
  rewrite LD in H. replace (3 * INR d / 2 ^ 53) with (INR d * (3 * u64)) by (unfold u64; field; apply pow_nonzero; lra). lra.
Qed.

(** The vertices of the simplex are among the computed nodes, exactly. *)
Theorem C76_vertices d n p v : (0 < n)%nat -> equispaced_nodes_for_space64 (PN d n) (Simplex d) = Ok p ->
  In v (pts_cols (unit_vertices_for_simplex d)) -> In v (pts_cols p).
Proof.
  intros Hn E Hv. destruct (C13_equispaced_simplex d n) as (q & ts & E2 & _ & _ & _ & _ & _ & _ & HV & _). destruct (HV Hn) as [_ HVn]. specialize (HVn v Hv).
  rewrite equispaced_pn_eq in E2. cbn [equispaced_nodes_for_space64 node_tuples_for_space bind] in E. rewrite Nat.eqb_refl in E. cbn [negb] in E.
  destruct (Nat.eqb_spec n 0) as [->|H0]; [lia|]. assert (EP : pts_cols p = map (map (node64 n)) (gnitsam n d)) by (injection E as <-; reflexivity).
  assert (EQ : pts_cols q = map (map (fun t => INR t / INR n * 2 - 1)) (gnitsam n d)) by (injection E2 as <-; reflexivity).
  rewrite EQ in HVn. apply in_map_iff in HVn. destruct HVn as (t & Et & Ht). rewrite EP. apply in_map_iff. exists t. split; [|easy]. rewrite <- Et.
  assert (PM : forall c, In c v -> c = -1 \/ c = 1) by (intros c Hc; exact (vertex_entries d v c Hv Hc)).
  rewrite <- Et in PM. assert (P : 0 < INR n) by (now apply lt_0_INR). clear -PM P Hn. apply map_ext_in. intros k Hk. destruct (PM (INR k / INR n * 2 - 1) ltac:(apply in_map_iff; now exists k)) as [E|E].
  - rewrite E. assert (INR k = 0). { apply Rmult_eq_reg_r with (/ INR n); [|apply Rinv_neq_0_compat; lra]. unfold Rdiv in E. lra. } assert (k = 0%nat) as -> by (apply INR_eq; exact H). now apply node64_0.
  - rewrite E. assert (INR k = INR n). { apply Rmult_eq_reg_r with (/ INR n); [|apply Rinv_neq_0_compat; lra]. rewrite Rinv_r by lra. unfold Rdiv in E. lra. } assert (k = n) as -> by (apply INR_eq; exact H). now apply node64_n.
Qed.

(** The nodes do not always lie in the simplex: at order 5 on the triangle, the node of indices
    (4, 1) is outside, by 2^-53. *)
Theorem C76_inside_refuted : exists p x, equispaced_nodes_for_space64 (PN 2 5) (Simplex 2) = Ok p /\ In x (pts_cols p)
  /\ fold_right Rplus 0 x = / 2 ^ 53 /\ ~ in_simplex 2 x.
Proof.
  eexists _, [node64 5 4; node64 5 1]. split; [reflexivity|].
  assert (S : fold_right Rplus 0 [node64 5 4; node64 5 1] = / 2 ^ 53).
  { cbn [fold_right]. rewrite node64_5_4, node64_5_1. fold u64. rewrite u64_bpow. ring. }
  split; [|split; [exact S|]].
  - unfold scale_tuples64. cbn [pts_cols]. change [node64 5 4; node64 5 1] with (map (node64 5) [4%nat; 1%nat]). apply in_map. apply gnitsam_in. split; [reflexivity|cbn; lia].
  - intros (_ & _ & H). unfold list_sum in H. rewrite S in H. cbn [INR] in H. assert (0 < / 2 ^ 53) by (apply Rinv_0_lt_compat, pow_lt; lra). lra.
Qed.

(** ** Operators on the rounded nodes.  Up to order 10^10 the rounded nodes meet the
    conditions on the tolerance strips (a node on the collapsed edge has a first coordinate that is exactly -1), so that the Vandermonde matrix is invertible on the rounded nodes themselves, resampling from them is
    exact on the polynomials of the space and so is the mass matrix. *)
Theorem C76_operators s sh : fits s sh -> orders10 s -> pn_dims 1 3 s ->
  exists p b fs M, equispaced_nodes_for_space64 s sh = Ok p /\ orthonormal_basis_for_space s sh = Ok b /\ functions Rops b = Ok fs
    /\ unisolvent fs (pts_cols p)
    /\ (forall new ls, (forall x, In x new -> length x = spatial_dim s /\ good_point b x) ->
        exists Q, resampling_matrix fs new (pts_cols p) ls = Ok Q
          /\ forall f, in_space s f -> forall i, (i < length new)%nat -> rsum (fun k => ent Q i k * f (pt (pts_cols p) k)) (length (pts_cols p)) = f (pt new i))
    /\ mass_matrix (inl b) (pts_cols p) = Ok M
    /\ forall f g, in_space s f -> in_space s g ->
         is_int sh (fun x => f x * g x)
           (rsum (fun i => f (pt (pts_cols p) i) * rsum (fun j => ent M i j * g (pt (pts_cols p) j)) (length (pts_cols p))) (length (pts_cols p))).
Proof.
  intros HF HO HP3.
  destruct (equi64_nodes_of s sh HF HO) as (p & E & HN & _ & _). pose proof (nodes_of_space_nodes _ _ HN) as HD. destruct (onb_basis_of s sh HF HP3) as (b & Eb & Hb).
  assert (Hg : forall x, In x (pts_cols p) -> good_point b x) by (intros x Hx; exact (nodes_good s b _ Hb HN x Hx)).
  destruct (C66_operators s sh (pts_cols p) b HF HD HP3 Eb Hg) as (HR & _ & M & EM & HM).
  destruct (C66_bases s sh (pts_cols p) HF HD) as (_ & HB & _). destruct (HB HP3) as (b' & Eb' & HU). assert (b' = b) by congruence. subst b'. destruct (HU Hg) as (fs & Ef & _ & HU').
  exists p, b, fs, M. split; [easy|]. split; [easy|]. split; [easy|]. split; [easy|]. split; [|split; [exact EM|exact HM]].
  intros new ls Hnew. destruct (HR new ls Hnew) as (fs' & Q & Ef' & EQ & _ & _ & HQ). assert (fs' = fs) by congruence. subst fs'. exists Q. split; [exact EQ|exact HQ].
Qed.

(** The derivative matrices of all the bases on offer take the rounded nodes to exact partial derivatives there,
    kill constants, commute and are nilpotent. *)
Theorem C76_derivatives junk s sh b : fits s sh -> orders10 s -> offered s sh b ->
  exists p Ds, equispaced_nodes_for_space64 s sh = Ok p /\ diff_matrices junk b (pts_cols p) None = Ok Ds /\ operator_laws s (pts_cols p) Ds.
Proof.
  intros HF HO HB. destruct (equi64_nodes_of s sh HF HO) as (p & E & HN & _ & _). exists p.
  destruct (C67_own_nodes junk s sh b (pts_cols p) HF HB (nodes_of_space_nodes _ _ HN)) as (Ds & E1 & L1).
  { intros x Hx. exact (nodes_good s b _ (offered_basis s sh b HF HB) HN x Hx). }
  exists Ds. auto.
Qed.

(** ** Refused arguments, as in exact arithmetic *)
Theorem C76_refused d n sd c bs c' shbs :
  (d <> sd -> equispaced_nodes_for_space64 (PN d n) (Simplex sd) = Err ValueError)
  /\ equispaced_nodes_for_space64 (PN d n) (TPShape c' sd shbs) = Err NotImplementedE
  /\ equispaced_nodes_for_space64 (TPSpace c bs) (Simplex sd) = Err NotImplementedE
  /\ (spatial_dim (TPSpace c bs) <> sd -> equispaced_nodes_for_space64 (TPSpace c bs) (TPShape c' sd shbs) = Err ValueError).
Proof.
  split; [|split; [|split]]; try reflexivity.
  - intros H. cbn [equispaced_nodes_for_space64]. destruct (Nat.eqb_spec d sd); [lia|reflexivity].
  - intros H. cbn [equispaced_nodes_for_space64]. destruct (Nat.eqb_spec (spatial_dim (TPSpace c bs)) sd); [lia|reflexivity].
Qed.

(** ** Non-vacuity: a product of a tetrahedron and an interval, with order 5; the rounding does change a coordinate *)
Example C76_example : let s := TPSpace STensorProduct [PN 3 5; PN 1 5] in let sh := TPShape CTensorProduct 4 [Simplex 3; Simplex 1] in
  fits s sh /\ orders64 s /\ orders10 s /\ pn_dims 1 3 s /\ space_dim s = 336%nat /\ exists b, offered s sh b.
Proof.
  cbn zeta. assert (HF : fits (TPSpace STensorProduct [PN 3 5; PN 1 5]) (TPShape CTensorProduct 4 [Simplex 3; Simplex 1])) by (apply (fits_tp _ _ [PN 3 5; PN 1 5] [Simplex 3; Simplex 1]); repeat constructor).
  assert (HP : pn_dims 1 3 (TPSpace STensorProduct [PN 3 5; PN 1 5])) by (constructor; repeat constructor; lia).
  split; [exact HF|]. split; [constructor; repeat constructor; cbn; lia|].
  split; [constructor; repeat constructor; cbn [INR]; lra|]. split; [exact HP|]. split; [reflexivity|].
  destruct (onb_basis_of _ _ HF HP) as (b & E & _). exists b. right; left. auto.
Qed.
Example C76_example_rounded : node64 5 1 <> 2 * INR 1 / INR 5 - 1 /\ node64 4 1 = - / 2.
Proof.
  split.
  - rewrite node64_5_1. change (bpow radix2 (-53)) with (/ 9007199254740992). cbn [INR]. lra.
  - change 4%nat with (2 ^ 2)%nat at 1. rewrite C76_power_of_two by (cbn; lia). cbn [INR Nat.pow Nat.mul Nat.add]. lra.
Qed.

Print Assumptions C76_coordinate.
Print Assumptions C76_distinct.
Print Assumptions C76_power_of_two.
Print Assumptions C76_space.
Print Assumptions C76_simplex.
Print Assumptions C76_vertices.
Print Assumptions C76_inside_refuted.
Print Assumptions C76_operators.
Print Assumptions C76_derivatives.
Print Assumptions C76_refused.
