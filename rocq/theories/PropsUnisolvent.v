(** * C65: equispaced nodes are unisolvent; the bases span the space; the operator
    matrices of equispaced elements exist and are exact, without a hypothesis on
    the nodes *)
From Coquelicot Require Import Coquelicot.
From Coq Require Import List Arith Bool ZArith Reals Lra Lia.
From Verif Require Import Py PyToolsModel RSum RField ModelLinAlg ProofLinAlg ModelNd ModelShapes ModelSpaces ModelNodes ModelModes ModelBasis ModelQuad
  ModelMatrices EnumFacts SpecIndex SpecGeometry SpecIntegral SpecPoly SpecPartial SpecSpan ProofNodeTuples ProofTPCall ProofTPNodes ProofMonomial ProofBasisDeriv
  ProofPKDO ProofTPOrtho ProofSpaces ProofBasisIndex ProofEquispaced ProofQuad ProofMatrices ProofMatrices2 ProofDiffPerm ProofMatrices3 ProofExchange ProofUnisolvent
  PropsBasis PropsMatrices.
Import ListNotations.
Local Open Scope R_scope.

Lemma nth_error_map_inv {A B} (f : A -> B) l k y : nth_error (map f l) k = Some y -> exists x, nth_error l k = Some x /\ y = f x.
Proof. rewrite nth_error_map. destruct (nth_error l k) as [x|]; [|discriminate]. cbn. intros E. injection E as <-. eauto. Qed.

(** Every lattice of pairwise distinct abscissae, in every dimension and for every order. *)
Theorem C65_lattice (g : nat -> R) d n fs :
  (forall i j, (i <= n)%nat -> (j <= n)%nat -> g i = g j -> i = j) ->
  functions Rops (SimplexMonomial d n) = Ok fs ->
  defined_on fs (map (map g) (gnitsam n d)) /\ unisolvent fs (map (map g) (gnitsam n d)).
Proof.
  intros Hg E. cbn in E. match type of E with Ok ?x = _ => assert (fs = x) as -> by congruence end.
  split; [apply lattice_defined|now apply lattice_unisolvent].
Qed.

(** The three bases the code offers for a space are unisolvent on the equispaced nodes of the space. *)
Theorem C65_equispaced s sh : fits s sh -> orders_ok s ->
  exists p, equispaced_nodes_for_space s sh = Ok p
    /\ (exists b fs, monomial_basis_for_space s sh = Ok b /\ functions Rops b = Ok fs
          /\ defined_on fs (pts_cols p) /\ unisolvent fs (pts_cols p))
    /\ (pn_dims 1 3 s -> exists b fs, orthonormal_basis_for_space s sh = Ok b /\ functions Rops b = Ok fs
          /\ defined_on fs (pts_cols p) /\ unisolvent fs (pts_cols p))
    /\ (pos_dims s -> exists b fs, basis_for_space s sh = Ok b /\ functions Rops b = Ok fs
          /\ defined_on fs (pts_cols p) /\ unisolvent fs (pts_cols p)).
Proof.
  intros HF HO. destruct (equi_nodes s sh HF HO) as (p & E & HN). exists p. split; [easy|].
  assert (G : forall b, basis_of s b -> exists fs, functions Rops b = Ok fs /\ defined_on fs (pts_cols p) /\ unisolvent fs (pts_cols p))
    by (intros b Hb; now apply (uni_of s b)).
  split; [|split].
  - destruct (mono_basis_of s sh HF) as (b & Eb & Hb). destruct (G b Hb) as (fs & H). exists b, fs. easy.
  - intros HP. destruct (onb_basis_of s sh HF HP) as (b & Eb & Hb). destruct (G b Hb) as (fs & H). exists b, fs. easy.
  - intros HP. destruct (basis_for_basis_of s sh HF HP) as (b & Eb & Hb). destruct (G b Hb) as (fs & H). exists b, fs. easy.
Qed.

(** Nodal interpolation: every data has exactly one interpolant among the polynomials of the space. *)
Theorem C65_interpolation s sh : fits s sh -> orders_ok s ->
  exists p, equispaced_nodes_for_space s sh = Ok p
    /\ (forall u : nat -> R, exists f, in_space s f /\ forall i, (i < length (pts_cols p))%nat -> f (pt (pts_cols p) i) = u i)
    /\ (forall f g, in_space s f -> in_space s g -> (forall x, In x (pts_cols p) -> f x = g x) ->
          forall x, length x = spatial_dim s -> f x = g x).
Proof.
  intros HF HO. destruct (equi_nodes s sh HF HO) as (p & E & HN). exists p. split; [easy|]. split.
  - intros u. destruct (mono_basis_of s sh HF) as (b & Eb & Hb). destruct (uni_of s b _ Hb HN) as (fs & Ef & _ & HU).
    destruct (basis_modes s b Hb) as (ms & HM). assert (fs = map fst ms) as -> by (destruct HM as (X & _); congruence).
    destruct (interpolant _ _ u HU) as (c & Hc). exists (combo (map snd ms) c). split.
    + apply combo_in_space. destruct HM as (_ & _ & HM). eapply Forall_impl; [|exact HM]. now intros m [? _].
    + intros i Hi. rewrite <- Hc by easy. symmetry. assert (Hin := pt_in _ _ Hi). destruct (nodes_of_dim s _ HN) as [_ Hd].
      apply (modes_lin s b); [easy|now apply Hd|eapply nodes_good; eauto].
  - intros f g Hf Hg H x Hx. assert (Z : f x + -1 * g x = 0); [|lra].
    apply (nodes_of_zero s _ HN (fun x => f x + -1 * g x)); [| |easy].
    + apply in_space_plus; [easy|now apply in_space_scal].
    + intros y Hy. rewrite H by easy. ring.
Qed.

(** The orthonormal basis spans exactly the polynomials of the space. *)
Theorem C65_span s sh : fits s sh -> pn_dims 1 3 s ->
  exists b fs phis, orthonormal_basis_for_space s sh = Ok b /\ functions Rops b = Ok fs
    /\ length phis = space_dim s /\ length fs = space_dim s /\ orthonormal_on sh phis
    /\ (forall k f phi, nth_error fs k = Some f -> nth_error phis k = Some phi ->
          in_space s phi /\ forall x, length x = spatial_dim s -> good_point b x -> f x = Ok (phi x))
    /\ (forall c, in_space s (combo phis c))
    /\ (forall f, in_space s f -> exists c, forall x, length x = spatial_dim s -> f x = combo phis c x).
Proof.
  intros HF HP. destruct (C25_for_space s sh HF HP) as (b & fs & phis & Eb & Ef & Lf & Lp & _ & H1 & H2).
  destruct (onb_basis_of s sh HF HP) as (b' & Eb' & Hb). assert (b' = b) by congruence. subst b'.
  destruct (basis_spans s b Hb) as (ms & HM & HS). assert (fs = map fst ms) as -> by (destruct HM as (X & _); congruence).
  (* both families are polynomials that agree at good points *)
  assert (AG : forall k m phi, nth_error ms k = Some m -> nth_error phis k = Some phi ->
     forall x, length x = spatial_dim s -> snd m x = phi x).
  { intros k m phi Em Ep. destruct (H1 k (fst m) phi) as [(D1 & P1) V1]; [exact (map_nth_error fst k ms Em)|easy|].
    destruct HM as (_ & _ & HM). rewrite Forall_forall in HM. destruct (HM m (nth_error_In _ _ Em)) as [S2 V2].
    destruct (in_space_poly s _ S2) as (D2 & P2).
    apply (good_agree s b (D1 + D2)); [easy|apply (is_poly_weaken _ D2); [lia|easy]|apply (is_poly_weaken _ D1); [lia|easy]|].
    intros x Hx Hg. specialize (V1 x Hx Hg). specialize (V2 x Hx Hg). congruence. }
  assert (LM : length ms = space_dim s) by apply HM.
  assert (CA : forall c x, length x = spatial_dim s -> combo (map snd ms) c x = combo phis c x).
  { intros c x Hx. assert (LL : length (map snd ms) = length phis) by (rewrite map_length; exact (eq_trans LM (eq_sym Lp))).
    unfold combo. refine (eq_trans (f_equal (rsum _) LL) _). apply rsum_ext. intros k Hk. f_equal.
    assert (Hk' : (k < length ms)%nat) by (rewrite map_length in LL; exact (eq_ind_r (fun z => (k < z)%nat) Hk LL)).
    destruct (nth_error ms k) as [m|] eqn:Em; [|apply nth_error_None in Em; exfalso; revert Em Hk'; apply Nat.le_ngt].
    destruct (nth_error phis k) as [phi|] eqn:Ep; [|apply nth_error_None in Ep; lia].
    rewrite (nth_error_nth phis k _ Ep). assert (Em' : nth_error (map snd ms) k = Some (snd m)) by (exact (map_nth_error snd k ms Em)).
    rewrite (nth_error_nth _ _ _ Em'). now apply (AG k). }
  exists b, (map fst ms), phis. split; [easy|]. split; [easy|]. split; [easy|]. split; [now rewrite map_length|].
  split; [exact H2|]. split; [|split].
  - intros k f phi Ek Ep. destruct (nth_error_map_inv _ _ _ _ Ek) as (m & Em & ->). destruct (H1 k (fst m) phi) as [_ V1]; [exact (map_nth_error fst k ms Em)|easy|].
    split; [|exact V1]. destruct HM as (_ & _ & HM). rewrite Forall_forall in HM. destruct (HM m (nth_error_In _ _ Em)) as [S2 _].
    apply (in_space_ext s (snd m)); [|easy]. intros x Hx. now apply (AG k).
  - intros c. apply (in_space_ext s (combo (map snd ms) c)); [now apply CA|]. apply combo_in_space.
    destruct HM as (_ & _ & HM). eapply Forall_impl; [|exact HM]. now intros m [? _].
  - intros f Hf. destruct (HS f Hf) as (c & Hc). exists c. intros x Hx. rewrite Hc, CA; easy.
Qed.

(** Resampling from equispaced nodes reproduces every polynomial of the space. *)
Theorem C65_resampling s sh : fits s sh -> pn_dims 1 3 s -> orders_ok s ->
  exists p b fs, equispaced_nodes_for_space s sh = Ok p /\ orthonormal_basis_for_space s sh = Ok b /\ functions Rops b = Ok fs
    /\ forall new ls, (forall x, In x new -> length x = spatial_dim s /\ good_point b x) ->
       exists M, resampling_matrix fs new (pts_cols p) ls = Ok M
         /\ nrows M = length new /\ ncols M = length (pts_cols p)
         /\ forall f, in_space s f -> forall i, (i < length new)%nat ->
              rsum (fun k => ent M i k * f (pt (pts_cols p) k)) (length (pts_cols p)) = f (pt new i).
Proof.
  intros HF HP HO. destruct (equi_nodes s sh HF HO) as (p & E & HN). destruct (onb_basis_of s sh HF HP) as (b & Eb & Hb).
  destruct (uni_of s b _ Hb HN) as (fs & Ef & HD & HU). destruct (basis_spans s b Hb) as (ms & HM & HS).
  assert (fs = map fst ms) as -> by (destruct HM as (X & _); congruence).
  exists p, b, (map fst ms). split; [easy|]. split; [easy|]. split; [easy|]. intros new ls Hnew.
  assert (DN : defined_on (map fst ms) new).
  { intros f x Hf Hx. apply in_map_iff in Hf. destruct Hf as (m & <- & Hm). destruct HM as (_ & _ & HM). rewrite Forall_forall in HM.
    destruct (HM m Hm) as [_ V0]. destruct (Hnew x Hx). rewrite V0; eauto. }
  destruct (C26_exact _ new (pts_cols p) ls DN HD HU) as (M & EM & R1 & C1 & HX). exists M. split; [easy|]. split; [easy|]. split; [easy|].
  intros f Hf i Hi. destruct (HS f Hf) as (c & Hc). destruct (nodes_of_dim s _ HN) as [_ Hd].
  assert (Hin := pt_in _ _ Hi). destruct (Hnew _ Hin) as [L1 G1].
  rewrite Hc by easy. rewrite <- (modes_lin s b ms c _ HM L1 G1), <- (HX c i Hi). apply rsum_ext. intros k Hk. f_equal.
  assert (Hin' := pt_in _ _ Hk). rewrite Hc by (now apply Hd). symmetry. apply (modes_lin s b); [easy|now apply Hd|eapply nodes_good; eauto].
Qed.

(** Differentiation matrices on equispaced data are exact for every polynomial of the space,
    at all points off the tolerance strips. *)
Theorem C65_differentiation junk s sh nodes : fits s sh -> pn_dims 1 3 s -> orders_ok s -> nodes <> [] ->
  exists p b, equispaced_nodes_for_space s sh = Ok p /\ orthonormal_basis_for_space s sh = Ok b
    /\ ((forall x, In x nodes -> length x = spatial_dim s /\ off_strips b x) ->
        exists Ds, diff_matrices junk b nodes (Some (pts_cols p)) = Ok Ds /\ length Ds = spatial_dim s
         /\ forall f, in_space s f -> forall i, (i < length nodes)%nat ->
              has_partials f (pt nodes i)
                (map (fun D => rsum (fun k => ent D i k * f (pt (pts_cols p) k)) (length (pts_cols p))) Ds)).
Proof.
  intros HF HP HO Hne. destruct (equi_nodes s sh HF HO) as (p & E & HN). destruct (onb_basis_of s sh HF HP) as (b & Eb & Hb).
  destruct (uni_of s b _ Hb HN) as (fs & Ef & HD & HU). destruct (basis_spans s b Hb) as (ms & HM & HS).
  assert (fs = map fst ms) as -> by (destruct HM as (X & _); congruence).
  destruct (nodes_of_dim s _ HN) as [Ln Hd]. destruct (basis_of_wf s b Hb) as [W1 W2]. pose proof (basis_of_dim s b Hb) as BD.
  exists p, b. split; [easy|]. split; [easy|]. intros Hx.
  destruct (C27_basis junk b (map fst ms) nodes (Some (pts_cols p)) W1 W2 Ef Hne) as (Ds & E1 & L1 & HX).
  - intros x [H|H]; rewrite BD; [now apply Hx|now apply Hd].
  - intros x H. now apply Hx.
  - exact HU.
  - intros X. pose proof (space_dim_pos s). destruct HU as [HU _]. rewrite X in HU. cbn [length] in HU. rewrite Ln in HU. lia.
  - exists Ds. split; [easy|]. split; [now rewrite L1|]. intros f Hf i Hi. destruct (HS f Hf) as (c & Hc).
    assert (Hin := pt_in _ _ Hi). destruct (Hx _ Hin) as [Lx Ox]. destruct (HX c i Hi) as [HL HDer].
    rewrite (map_ext _ (fun D => rsum (fun k => ent D i k * lin (map fst ms) c (pt (pts_cols p) k)) (length (pts_cols p)))).
    2:{ intros D. apply rsum_ext. intros k Hk. f_equal. assert (Hin' := pt_in _ _ Hk). rewrite Hc by (now apply Hd).
        symmetry. apply (modes_lin s b); [easy|now apply Hd|eapply nodes_good; eauto]. }
    split; [exact HL|]. intros j Hj. specialize (HDer j Hj).
    eapply (is_derive_ext_loc (fun t => lin (map fst ms) c (upd (pt nodes i) j t))); [|exact HDer].
    apply filter_imp with (fun t => off_strips b (upd (pt nodes i) j t)); [|now apply (off_strips_open s)].
    intros t Ht. assert (Lu : length (upd (pt nodes i) j t) = spatial_dim s) by (now rewrite upd_length).
    rewrite Hc by easy. apply (modes_lin s b); [easy|easy|now apply (off_good s)].
Qed.

(** The mass matrix of an equispaced element integrates products of polynomials of the space. *)
Theorem C65_mass s sh : fits s sh -> pn_dims 1 3 s -> orders_ok s ->
  exists p b M, equispaced_nodes_for_space s sh = Ok p /\ orthonormal_basis_for_space s sh = Ok b
    /\ mass_matrix (inl b) (pts_cols p) = Ok M
    /\ forall f g, in_space s f -> in_space s g ->
         is_int sh (fun x => f x * g x)
           (rsum (fun i => f (pt (pts_cols p) i)
              * rsum (fun j => ent M i j * g (pt (pts_cols p) j)) (length (pts_cols p))) (length (pts_cols p))).
Proof.
  intros HF HP HO. destruct (equi_nodes s sh HF HO) as (p & E & HN).
  destruct (C65_span s sh HF HP) as (b & fs & phis & Eb & Ef & Lp & Lf & HOn & HV & _ & HS).
  destruct (onb_basis_of s sh HF HP) as (b' & Eb' & Hb). assert (b' = b) by congruence. subst b'.
  destruct (uni_of s b _ Hb HN) as (fs' & Ef' & HD & HU). assert (fs' = fs) by congruence. subst fs'.
  destruct (nodes_of_dim s _ HN) as [Ln Hd].
  assert (HR : represents fs phis (pts_cols p)).
  { split; [exact (eq_trans Lp (eq_sym Lf))|]. intros k f phi x Ek Ep Hin. destruct (HV k f phi Ek Ep) as [_ V0]. apply V0; [now apply Hd|eapply nodes_good; eauto]. }
  destruct (C28_mass fs phis (pts_cols p) sh HR HOn HU) as (M & W & EM & _ & _ & _ & _ & _ & HI & _).
  exists p, b, M. split; [easy|]. split; [easy|]. split.
  - destruct (C28_for_space s sh (pts_cols p) HF HP) as (b1 & fs1 & _ & Eb1 & Ef1 & _ & _ & EE & _).
    assert (b1 = b) by congruence. subst b1. assert (fs1 = fs) by congruence. subst fs1. now rewrite EE.
  - intros f g Hf Hg. destruct (HS f Hf) as (c & Hc). destruct (HS g Hg) as (d & Hdg).
    eapply is_int_ext with (f := fun x => combo phis c x * combo phis d x).
    { intros x Hx. apply (in_shape_dim b sh x (proj1 (onb_for_space_on s sh b HF HP Eb))) in Hx. rewrite (basis_of_dim s b Hb) in Hx. rewrite Hc, Hdg; easy. }
    eapply is_int_cast; [apply HI|]. apply rsum_ext. intros i Hi. rewrite Hc by (apply Hd; now apply pt_in). f_equal.
    apply rsum_ext. intros j Hj. rewrite Hdg by (apply Hd; now apply pt_in). reflexivity.
Qed.

(** The permutation shortcut for differentiation matrices needs no hypothesis on lattice nodes. *)
Theorem C65_permutation junk d n k (g : nat -> R) (nodes := map (map g) (gnitsam n d)) :
  (forall i j, (i <= n)%nat -> (j <= n)%nat -> g i = g j -> i = j) -> (k < d)%nat ->
  exists perm Ds D0 Dk, diff_matrix_permutation (gnitsam n d) k = Ok perm
    /\ diff_matrices junk (SimplexMonomial d n) nodes None = Ok Ds
    /\ nth_error Ds 0 = Some D0 /\ nth_error Ds k = Some Dk
    /\ forall i j, (i < length nodes)%nat -> (j < length nodes)%nat ->
         ent Dk i j = ent D0 (nth i perm 0%nat) (nth j perm 0%nat).
Proof.
  intros Hg Hk. eapply C30_monomials; [easy|reflexivity|]. now apply (C65_lattice g d n _ Hg).
Qed.

(** Non-vacuity: P2 on the triangle times P3 on the interval. *)
Definition ex_prism : fspace := TPSpace STensorProduct [PN 2 2; PN 1 3].
Example C65_example : exists sh, fits ex_prism sh /\ pn_dims 1 3 ex_prism /\ orders_ok ex_prism /\ pos_dims ex_prism
  /\ in_space ex_prism (fun x => nth 0 x 0 * nth 1 x 0 * nth 2 x 0 ^ 3 + 2)
  /\ ~ in_space ex_prism (fun x => nth 0 x 0 ^ 3)
  /\ (exists x, length x = spatial_dim ex_prism /\ off_strips (TPBasis [SimplexONB 2 2; SimplexONB 1 3] [2%nat; 1%nat]) x).
Proof.
  assert (IN : forall n : nat, (n <= 3)%nat -> INR n < 2 * 10 ^ 10).
  { intros n Hn. apply le_INR in Hn. replace (INR 3) with 3 in Hn by (cbn; ring). lra. }
  exists (TPShape CTensorProduct 3 [Simplex 2; Simplex 1]). split; [|split; [|split; [|split; [|split; [|split]]]]].
  - apply (fits_tp _ _ [PN 2 2; PN 1 3] [Simplex 2; Simplex 1]). repeat constructor.
  - repeat constructor; lia.
  - constructor. constructor; [constructor; apply IN; lia|]. constructor; [constructor; apply IN; lia|constructor].
  - repeat constructor; lia.
  - exists [(1, [1%nat; 1%nat; 3%nat]); (2, [0%nat; 0%nat; 0%nat])]. split.
    + constructor; [|constructor; [|constructor]]; cbn [snd].
      * apply (se_tp _ _ [[1%nat; 1%nat]; [3%nat]]). repeat constructor.
      * apply (se_tp _ _ [[0%nat; 0%nat]; [0%nat]]). repeat constructor.
    + intros x Hx. cbn in Hx. apply len3 in Hx. destruct Hx as (a & b & c & ->). unfold polyval. cbn [fold_right fst snd monoval nth]. ring.
  - (* the third finite difference in x of a polynomial of the space vanishes *)
    intros (ts & A & B).
    assert (D : forall ts, Forall (fun t : R * list nat => space_exp ex_prism (snd t)) ts ->
       polyval ts [3; 0; 0] - 3 * polyval ts [2; 0; 0] + 3 * polyval ts [1; 0; 0] - polyval ts [0; 0; 0] = 0).
    { clear. induction 1 as [|[c e] ts He _ IH]; [unfold polyval; cbn; ring|]. cbn [snd] in He. inversion He as [|? ? es F2]; subst.
      inversion F2 as [|? e1 ? es1 E1 F3]; subst. inversion F3 as [|? e2 ? es2 E2 F4]; subst. inversion F4; subst.
      inversion E1 as [? ? ? L1 T1|]; subst. inversion E2 as [? ? ? L2 T2|]; subst. apply nlen2 in L1. destruct L1 as (i & j & ->).
      apply nlen1 in L2. destruct L2 as (k & ->). cbn in T1, T2.
      unfold polyval in *. cbn [fold_right fst snd concat app monoval].
      assert (Q : 3 ^ i - 3 * 2 ^ i + 3 * 1 ^ i - 0 ^ i = 0) by (destruct i as [|[|[|i]]]; [cbn; ring..|lia]).
      set (r := 0 ^ j * (0 ^ k * 1)) in *.
      transitivity (c * r * (3 ^ i - 3 * 2 ^ i + 3 * 1 ^ i - 0 ^ i)
        + (fold_right (fun t acc => fst t * monoval (snd t) [3; 0; 0] + acc) 0 ts
           - 3 * fold_right (fun t acc => fst t * monoval (snd t) [2; 0; 0] + acc) 0 ts
           + 3 * fold_right (fun t acc => fst t * monoval (snd t) [1; 0; 0] + acc) 0 ts
           - fold_right (fun t acc => fst t * monoval (snd t) [0; 0; 0] + acc) 0 ts)); [ring|].
      rewrite Q, IH. ring. }
    specialize (D ts A). rewrite <- !B in D by reflexivity. cbn [nth] in D. lra.
  - exists [0; 0; 0]. split; [reflexivity|]. cbn. split; [|split; exact I]. pose proof inv10_12. cbn in H. rewrite Rabs_left; lra.
Qed.

Print Assumptions C65_lattice.
Print Assumptions C65_equispaced.
Print Assumptions C65_interpolation.
Print Assumptions C65_span.
Print Assumptions C65_resampling.
Print Assumptions C65_differentiation.
Print Assumptions C65_mass.
Print Assumptions C65_permutation.
