(** * C80: spaces of order one: the values of their functions lie between those at the vertices, and
    the estimated Lebesgue constant is exactly one *)
From Coquelicot Require Import Coquelicot.
From Coq Require Import List Arith Bool ZArith Reals Lra Lia Permutation Sorted.
From Verif Require Import Py PyToolsModel RSum RField ModelLinAlg ProofLinAlg ModelNd ModelShapes ModelSpaces ModelNodes ModelModes ModelBasis ModelQuad
  ModelMatrices ModelGauss ModelTools ModelWarpBlend ModelEdgeNodes ModelLebesgue ModelModalDecay EnumFacts SpecIndex SpecGeometry SpecIntegral SpecPoly SpecPartial SpecSpan ProofNodeTuples ProofTPCall ProofTPNodes ProofMonomial ProofBasisDeriv
  PropsQuad ProofQuadSpace ProofPKDO ProofTPOrtho ProofShapes ProofSpaces ProofBasisIndex ProofEquispaced ProofQuad ProofMatrices ProofMatrices2 ProofDiffPerm ProofMatrices3 ProofExchange ProofUnisolvent ProofSpaceNodes ProofEdgeNodes4
  ProofModalDecay ProofLebesgue PropsBasis PropsMatrices PropsUnisolvent PropsNodes PropsEdgeNodes PropsGradGood PropsSBP PropsModalDecay PropsLebesgue PropsLebesgue2 ProofLebesgue1.
Import ListNotations.
Local Open Scope R_scope.

(** A function of the space of order one of an element (a simplex or a product of simplices) that lies in [m, M] at
    the vertices does so on the whole element. *)
Theorem C80_between sh sp vs f m M : element sh -> space_for_shape sh (OInt 1) = Ok sp -> unit_vertices_for_shape sh = Ok vs -> in_space sp f ->
  (forall v, In v (pts_cols vs) -> m <= f v <= M) -> forall x, in_shape sh x -> m <= f x <= M.
Proof.
  intros HE Es Ev (ts & HT & Hf) HV x Hx. destruct (element_space sh 1 HE) as (sp' & Es' & HF & _). assert (sp' = sp) by congruence. subst sp'.
  assert (LX : length x = spatial_dim sp) by (rewrite (fits_dim _ _ HF); exact (in_shape_len sh (fits_ok _ _ HF) x Hx)). rewrite (Hf x LX).
  destruct HE as [(d & Hd & ->)|(c & ds & -> & NE & Hd)].
  - assert (sp = PN d 1) as -> by (cbn in Es; congruence). assert (vs = unit_vertices_for_simplex d) as -> by (cbn in Ev; congruence).
    apply (between_poly [d]).
    + eapply Forall_impl; [|exact HT]. intros t Ht. exists [snd t]. split; [constructor; [exact Ht|constructor]|]. cbn. now rewrite app_nil_r.
    + intros us Hu. inversion Hu as [|u ? us' ? (i & Hi & ->) Hu']; subst. inversion Hu'; subst. cbn [concat]. rewrite app_nil_r. rewrite <- Hf by (cbn [spatial_dim]; apply vert_length). apply HV. now apply vert_in.
    + cbn [map in_shapes]. exists x, []. split; [now rewrite app_nil_r|]. split; [exact Hx|reflexivity].
  - rewrite (flat_space c ds 1 NE) in Es. assert (sp = TPSpace STensorProduct (map (fun d => PN d 1) ds)) as -> by congruence. apply in_shape_TP in Hx.
    apply (between_poly ds); [| |exact Hx].
    + eapply Forall_impl; [|exact HT]. intros t Ht. inversion Ht; subst. eauto.
    + intros us Hu. destruct (product_vertices ds us Hd Hu) as (p & Ep & Hp).
      assert (EM : mapM unit_vertices_for_shape (map Simplex ds) = Ok (map unit_vertices_for_simplex ds)) by (clear; induction ds as [|d ds IH]; [reflexivity|]; cbn [map mapM unit_vertices_for_shape bind]; rewrite IH; reflexivity).
      unfold flat_product in Ev. cbn [unit_vertices_for_shape] in Ev. rewrite EM in Ev. cbn [bind] in Ev.
      assert (p = vs) by congruence. subst p. rewrite <- Hf; [now apply HV|].
      cbn [spatial_dim]. clear -Hu. induction Hu as [|v d us ds (i & Hi & ->) H IH]; [reflexivity|]. cbn [concat]. rewrite app_length, vert_length, IH. reflexivity.
Qed.

(** So with nodes that include the vertices the estimate of the Lebesgue constant is one, *)
Theorem C80_lebesgue_one sh sp vs nodes : element sh -> space_for_shape sh (OInt 1) = Ok sp -> nodes_fit sp sh nodes ->
  unit_vertices_for_shape sh = Ok vs -> (forall v, In v (pts_cols vs) -> In v nodes) ->
  estimate_lebesgue_constant 1 (shape_dim sh) nodes sh = Ok 1.
Proof.
  intros HE Es HN Ev HV. destruct (estimate_defined 1 sh nodes sp ltac:(lia) HE Es HN) as (L & EL). rewrite EL. f_equal.
  assert (HB : INR (30 * 1) < 2 * 10 ^ 10) by (cbn; lra).
  apply Rle_antisym; [|exact (C31_at_least_one 1 _ nodes sh L ltac:(lia) EL)].
  apply (C75_lower_bound 1 sh nodes sp L 1 ltac:(lia) HB HE Es HN EL). intros f x Hf Hx Hz. apply Rabs_le.
  apply (C80_between sh sp vs f (-1) 1 HE Es Ev Hf); [|exact Hx]. intros v Hv. apply Rabs_le_between. apply Hz. now apply HV.
Qed.
(** in particular for the equispaced nodes. *)
Theorem C80_equispaced sh sp : element sh -> space_for_shape sh (OInt 1) = Ok sp ->
  exists p, equispaced_nodes_for_space sp sh = Ok p /\ estimate_lebesgue_constant 1 (shape_dim sh) (pts_cols p) sh = Ok 1.
Proof.
  intros HE Es. destruct (C75_equispaced 1 sh sp ltac:(cbn; lra) HE Es) as (p & Ep & HN). exists p. split; [exact Ep|].
  destruct (element_space sh 1 HE) as (sp' & Es' & HF & _). assert (sp' = sp) by congruence. subst sp'.
  destruct (C13_equispaced_product sp sh HF) as (p' & Ep' & _ & _ & _ & _ & HV). assert (p' = p) by congruence. subst p'.
  destruct HV as (vs & Ev & Hin).
  { destruct HE as [(d & Hd & ->)|(c & ds & -> & NE & Hd)].
    - assert (sp = PN d 1) as -> by (cbn in Es; congruence). constructor. lia.
    - rewrite (flat_space c ds 1 NE) in Es. assert (sp = TPSpace STensorProduct (map (fun d => PN d 1) ds)) as -> by congruence. constructor. clear. induction ds; cbn [map]; constructor; [constructor; lia|easy]. }
  exact (C80_lebesgue_one sh sp vs (pts_cols p) HE Es HN Ev Hin).
Qed.

(** ** Non-vacuity: a prism; a function that takes both bounds *)
Example C80_example : let sh := flat_product CTensorProduct [2; 1]%nat in exists sp vs, element sh /\ space_for_shape sh (OInt 1) = Ok sp /\ unit_vertices_for_shape sh = Ok vs
  /\ in_space sp (fun x => nth 0 x 0 * nth 2 x 0) /\ space_dim sp = 6%nat.
Proof.
  cbv zeta. exists (TPSpace STensorProduct [PN 2 1; PN 1 1]). destruct (product_vertices [2; 1]%nat [vert 2 0; vert 1 0]) as (p & Ep & _).
  { repeat constructor; lia. } { constructor; [exists 0%nat; split; [lia|easy]|constructor; [exists 0%nat; split; [lia|easy]|constructor]]. }
  exists p. split; [right; exists CTensorProduct, [2; 1]%nat; split; [easy|]; split; [discriminate|repeat constructor; lia]|]. split; [reflexivity|]. split; [exact Ep|]. split; [|reflexivity].
  exists [(1, [1; 0; 1]%nat)]. split.
  - constructor; [|constructor]. cbn [snd]. apply (se_tp _ [PN 2 1; PN 1 1] [[1; 0]; [1]]%nat). repeat constructor.
  - intros x Hx. destruct x as [|a [|b [|c [|? ?]]]]; try discriminate Hx. unfold polyval. cbn. ring.
Qed.

Print Assumptions C80_between.
Print Assumptions C80_lebesgue_one.
Print Assumptions C80_equispaced.
