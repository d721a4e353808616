(** * Node sets on which only the zero polynomial of the space vanishes: operators on them *)
From Coquelicot Require Import Coquelicot.
From Coq Require Import List Arith Bool ZArith Reals Lra Lia.
From Verif Require Import Py PyToolsModel RSum RField ModelLinAlg ProofLinAlg ModelNd ModelShapes ModelSpaces ModelNodes ModelModes ModelBasis ModelQuad
  ModelMatrices EnumFacts SpecIndex SpecGeometry SpecIntegral SpecPoly SpecPartial SpecSpan ProofNodeTuples ProofTPCall ProofTPNodes ProofMonomial ProofBasisDeriv
  ProofPKDO ProofTPOrtho ProofSpaces ProofBasisIndex ProofEquispaced ProofQuad ProofMatrices ProofMatrices2 ProofDiffPerm ProofMatrices3 ProofExchange ProofUnisolvent
  PropsBasis PropsMatrices PropsUnisolvent.
Import ListNotations.
Local Open Scope R_scope.

Definition space_nodes (s : fspace) (xs : list (list R)) : Prop :=
  length xs = space_dim s /\ (forall x, In x xs -> length x = spatial_dim s)
  /\ forall f, in_space s f -> (forall x, In x xs -> f x = 0) -> forall x, length x = spatial_dim s -> f x = 0.

Lemma nodes_of_space_nodes s xs : nodes_of s xs -> space_nodes s xs.
Proof. intros H. destruct (nodes_of_dim s xs H). split; [easy|]. split; [easy|]. exact (nodes_of_zero s xs H). Qed.

Lemma uni_space s b xs : basis_of s b -> space_nodes s xs -> (forall x, In x xs -> good_point b x) ->
  exists fs, functions Rops b = Ok fs /\ defined_on fs xs /\ unisolvent fs xs.
Proof.
  intros HB (L & Hd & HZ) HG. destruct (basis_modes s b HB) as (ms & HM). exists (map fst ms). split; [apply HM|].
  assert (HM' := HM). destruct HM' as (_ & LM & HF). rewrite Forall_forall in HF. split; [|split].
  - intros f x Hf Hx. apply in_map_iff in Hf. destruct Hf as (m & <- & Hm). destruct (HF m Hm) as [_ V0]. rewrite V0; eauto.
  - rewrite map_length. exact (eq_trans LM (eq_sym L)).
  - intros c Hc. destruct (some_nodes s) as (ys & HN). destruct (uni_of s b ys HB HN) as (fs & Ef & _ & [_ HI]).
    assert (fs = map fst ms) as -> by (destruct HM as (X & _); congruence). apply HI. intros y Hy.
    destruct (nodes_of_dim s ys HN) as [_ Hdy]. rewrite (modes_lin s b ms c y HM); [|now apply Hdy|eapply nodes_good; eauto].
    apply (HZ (combo (map snd ms) c)); [| |now apply Hdy].
    + apply combo_in_space. apply Forall_forall. intros m Hm. now apply HF.
    + intros x Hx. rewrite <- (modes_lin s b ms c x HM); auto.
Qed.

Lemma mono_good s : forall sh b x, fits s sh -> monomial_basis_for_space s sh = Ok b -> good_point b x.
Proof.
  induction s as [d n|c ss IH] using fspace_ind'; intros sh b x HF E; inversion HF as [|? ? ? shs HFs]; subst.
  - cbn in E. assert (b = SimplexMonomial d n) as -> by congruence. exact I.
  - cbn [monomial_basis_for_space] in E. destruct (zipM _ ss shs) as [bs|] eqn:Ez; [|discriminate]. cbn [bind] in E.
    match type of E with Ok ?y = _ => assert (b = y) as -> by congruence end. apply good_point_TP. clear E HF. revert bs Ez x.
    induction HFs as [|s sh ss shs H1 HFs IHF]; intros bs Ez x; [assert (bs = []) as -> by (cbn in Ez; congruence); exact I|].
    inversion IH as [|? ? I1 I2]; subst. cbn [zipM] in Ez. destruct (monomial_basis_for_space s sh) as [b|] eqn:Eb; [|discriminate].
    cbn [bind] in Ez. destruct (zipM _ ss shs) as [bs'|] eqn:Ez'; [|discriminate]. cbn [bind] in Ez.
    assert (bs = b :: bs') as -> by congruence. cbn [good_point_all]. split; [exact (I1 sh b _ H1 Eb)|now apply IHF].
Qed.

Section Operators.
  Context (s : fspace) (sh : shape) (xs : list (list R)).
  Hypothesis HN : space_nodes s xs.
  Hypothesis HF : fits s sh.
  Let Ln : length xs = space_dim s := proj1 HN.
  Let Hd : forall x, In x xs -> length x = spatial_dim s := proj1 (proj2 HN).

  Lemma gen_bases : (exists b fs, monomial_basis_for_space s sh = Ok b /\ functions Rops b = Ok fs /\ defined_on fs xs /\ unisolvent fs xs)
    /\ (pn_dims 1 3 s -> exists b, orthonormal_basis_for_space s sh = Ok b
         /\ ((forall x, In x xs -> good_point b x) -> exists fs, functions Rops b = Ok fs /\ defined_on fs xs /\ unisolvent fs xs))
    /\ (pos_dims s -> exists b, basis_for_space s sh = Ok b
         /\ ((forall x, In x xs -> good_point b x) -> exists fs, functions Rops b = Ok fs /\ defined_on fs xs /\ unisolvent fs xs)).
  Proof.
    split; [|split].
    - destruct (mono_basis_of s sh HF) as (b & Eb & Hb). destruct (uni_space s b xs Hb HN) as (fs & H).
      + intros x _. exact (mono_good s sh b x HF Eb).
      + exists b, fs. easy.
    - intros HP. destruct (onb_basis_of s sh HF HP) as (b & Eb & Hb). exists b. split; [easy|]. intros HG. now apply (uni_space s b).
    - intros HP. destruct (basis_for_basis_of s sh HF HP) as (b & Eb & Hb). exists b. split; [easy|]. intros HG. now apply (uni_space s b).
  Qed.

  Lemma gen_interpolation (u : nat -> R) : exists f, in_space s f /\ (forall i, (i < length xs)%nat -> f (pt xs i) = u i)
    /\ forall g, in_space s g -> (forall i, (i < length xs)%nat -> g (pt xs i) = u i) -> forall x, length x = spatial_dim s -> g x = f x.
  Proof.
    destruct (some_nodes s) as (ys & HY). destruct gen_bases as ((b0 & fs0 & Eb0 & Ef0 & _ & HU0) & _).
    destruct (mono_basis_of s sh HF) as (b & Eb & Hb). assert (b0 = b) by congruence. subst b0.
    destruct (basis_modes s b Hb) as (ms & HM). assert (fs0 = map fst ms) as -> by (destruct HM as (X & _); congruence).
    destruct (interpolant _ _ u HU0) as (c & Hc). exists (combo (map snd ms) c).
    assert (IS : in_space s (combo (map snd ms) c)).
    { apply combo_in_space. destruct HM as (_ & _ & HM). eapply Forall_impl; [|exact HM]. now intros m [? _]. }
    assert (VV : forall i, (i < length xs)%nat -> combo (map snd ms) c (pt xs i) = u i).
    { intros i Hi. rewrite <- Hc by easy. symmetry. assert (Hin := pt_in _ _ Hi). apply (modes_lin s b); [easy|now apply Hd|].
      exact (mono_good s sh b _ HF Eb). }
    split; [easy|]. split; [easy|]. intros g Hg Vg x Hx. assert (Z : g x + -1 * combo (map snd ms) c x = 0); [|lra].
    apply (proj2 (proj2 HN) (fun x => g x + -1 * combo (map snd ms) c x)); [| |easy].
    - apply in_space_plus; [easy|now apply in_space_scal].
    - intros y Hy. apply in_pt in Hy. destruct Hy as (i & Hi & ->). rewrite Vg, VV by easy. ring.
  Qed.

  Hypothesis HP : pn_dims 1 3 s.
  Context (b : basis).
  Hypothesis Eb : orthonormal_basis_for_space s sh = Ok b.
  Hypothesis HG : forall x, In x xs -> good_point b x.
  Let Hb : basis_of s b.
  Proof. destruct (onb_basis_of s sh HF HP) as (b' & Eb' & Hb). assert (b' = b) by congruence. now subst. Qed.

  Lemma gen_resampling new ls : (forall x, In x new -> length x = spatial_dim s /\ good_point b x) ->
    exists fs M, functions Rops b = Ok fs /\ resampling_matrix fs new xs ls = Ok M
      /\ nrows M = length new /\ ncols M = length xs
      /\ forall f, in_space s f -> forall i, (i < length new)%nat ->
           rsum (fun k => ent M i k * f (pt xs k)) (length xs) = f (pt new i).
  Proof.
    intros Hnew. destruct (uni_space s b xs Hb HN HG) as (fs & Ef & HD & HU). destruct (basis_spans s b Hb) as (ms & HM & HS).
    assert (fs = map fst ms) as -> by (destruct HM as (X & _); congruence).
    assert (DN : defined_on (map fst ms) new).
    { intros f x Hf Hx. apply in_map_iff in Hf. destruct Hf as (m & <- & Hm). destruct HM as (_ & _ & HM). rewrite Forall_forall in HM.
      destruct (HM m Hm) as [_ V0]. destruct (Hnew x Hx). rewrite V0; eauto. }
    destruct (C26_exact _ new xs ls DN HD HU) as (M & EM & R1 & C1 & HX). exists (map fst ms), M. split; [easy|]. split; [easy|]. split; [easy|]. split; [easy|].
    intros f Hf i Hi. destruct (HS f Hf) as (c & Hc).
    assert (Hin := pt_in _ _ Hi). destruct (Hnew _ Hin) as [L1 G1].
    rewrite Hc by easy. rewrite <- (modes_lin s b ms c _ HM L1 G1), <- (HX c i Hi). apply rsum_ext. intros k Hk. f_equal.
    assert (Hin' := pt_in _ _ Hk). rewrite Hc by (now apply Hd). symmetry. apply (modes_lin s b); auto.
  Qed.

  Lemma gen_differentiation junk nodes : nodes <> [] -> (forall x, In x nodes -> length x = spatial_dim s /\ off_strips b x) ->
    exists Ds, diff_matrices junk b nodes (Some xs) = Ok Ds /\ length Ds = spatial_dim s
      /\ forall f, in_space s f -> forall i, (i < length nodes)%nat ->
           has_partials f (pt nodes i) (map (fun D => rsum (fun k => ent D i k * f (pt xs k)) (length xs)) Ds).
  Proof.
    intros Hne Hx. destruct (uni_space s b xs Hb HN HG) as (fs & Ef & HD & HU). destruct (basis_spans s b Hb) as (ms & HM & HS).
    assert (fs = map fst ms) as -> by (destruct HM as (X & _); congruence).
    destruct (basis_of_wf s b Hb) as [W1 W2]. pose proof (basis_of_dim s b Hb) as BD.
    destruct (C27_basis junk b (map fst ms) nodes (Some xs) W1 W2 Ef Hne) as (Ds & E1 & L1 & HX).
    - intros x [H|H]; rewrite BD; [now apply Hx|now apply Hd].
    - intros x H. now apply Hx.
    - exact HU.
    - intros X. pose proof (space_dim_pos s). destruct HU as [HU _]. rewrite X in HU. cbn [length] in HU. rewrite Ln in HU. lia.
    - exists Ds. split; [easy|]. split; [now rewrite L1|]. intros f Hf i Hi. destruct (HS f Hf) as (c & Hc).
      assert (Hin := pt_in _ _ Hi). destruct (Hx _ Hin) as [Lx Ox]. destruct (HX c i Hi) as [HL HDer].
      rewrite (map_ext _ (fun D => rsum (fun k => ent D i k * lin (map fst ms) c (pt xs k)) (length xs))).
      2:{ intros D. apply rsum_ext. intros k Hk. f_equal. assert (Hin' := pt_in _ _ Hk). rewrite Hc by (now apply Hd).
          symmetry. apply (modes_lin s b); auto. }
      split; [exact HL|]. intros j Hj. specialize (HDer j Hj).
      eapply (is_derive_ext_loc (fun t => lin (map fst ms) c (upd (pt nodes i) j t))); [|exact HDer].
      apply filter_imp with (fun t => off_strips b (upd (pt nodes i) j t)); [|now apply (off_strips_open s)].
      intros t Ht. assert (Lu : length (upd (pt nodes i) j t) = spatial_dim s) by (now rewrite upd_length).
      rewrite Hc by easy. apply (modes_lin s b); [easy|easy|now apply (off_good s)].
  Qed.

  Lemma gen_mass : exists M, mass_matrix (inl b) xs = Ok M
    /\ forall f g, in_space s f -> in_space s g ->
         is_int sh (fun x => f x * g x)
           (rsum (fun i => f (pt xs i) * rsum (fun j => ent M i j * g (pt xs j)) (length xs)) (length xs)).
  Proof.
    destruct (C65_span s sh HF HP) as (b1 & fs & phis & Eb1 & Ef & Lp & Lf & HOn & HV & _ & HS).
    assert (b1 = b) by congruence. subst b1.
    destruct (uni_space s b xs Hb HN HG) as (fs' & Ef' & HD & HU). assert (fs' = fs) by congruence. subst fs'.
    assert (HR : represents fs phis xs).
    { split; [exact (eq_trans Lp (eq_sym Lf))|]. intros k f phi x Ek Ep Hin. destruct (HV k f phi Ek Ep) as [_ V0]. apply V0; auto. }
    destruct (C28_mass fs phis xs sh HR HOn HU) as (M & W & EM & _ & _ & _ & _ & _ & HI & _).
    exists M. split.
    - destruct (C28_for_space s sh xs HF HP) as (b2 & fs1 & _ & Eb2 & Ef1 & _ & _ & EE & _).
      assert (b2 = b) by congruence. subst b2. assert (fs1 = fs) by congruence. subst fs1. now rewrite EE.
    - intros f g Hf Hg. destruct (HS f Hf) as (c & Hc). destruct (HS g Hg) as (d & Hdg).
      eapply is_int_ext with (f := fun x => combo phis c x * combo phis d x).
      { intros x Hx. apply (in_shape_dim b sh x (proj1 (onb_for_space_on s sh b HF HP Eb))) in Hx. rewrite (basis_of_dim s b Hb) in Hx. rewrite Hc, Hdg; easy. }
      eapply is_int_cast; [apply HI|]. apply rsum_ext. intros i Hi. rewrite Hc by (apply Hd; now apply pt_in). f_equal.
      apply rsum_ext. intros j Hj. rewrite Hdg by (apply Hd; now apply pt_in). reflexivity.
  Qed.
End Operators.
