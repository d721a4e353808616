(** * C75: Lebesgue constants and modal coefficient estimators, stated for the
    polynomials of the space instead of the basis of the code *)
From Coquelicot Require Import Coquelicot.
From Coq Require Import List Arith Bool ZArith Reals Lra Lia Permutation Sorted.
From Verif Require Import Py PyToolsModel RSum RField ModelLinAlg ProofLinAlg ModelNd ModelShapes ModelSpaces ModelNodes ModelModes ModelBasis ModelQuad
  ModelMatrices ModelGauss ModelTools ModelWarpBlend ModelEdgeNodes ModelLebesgue ModelModalDecay EnumFacts SpecIndex SpecGeometry SpecIntegral SpecPoly SpecPartial SpecSpan ProofNodeTuples ProofTPCall ProofTPNodes ProofMonomial ProofBasisDeriv
  PropsQuad ProofQuadSpace ProofPKDO ProofTPOrtho ProofShapes ProofSpaces ProofBasisIndex ProofEquispaced ProofQuad ProofMatrices ProofMatrices2 ProofDiffPerm ProofMatrices3 ProofExchange ProofUnisolvent ProofSpaceNodes ProofEdgeNodes4
  ProofModalDecay ProofLebesgue PropsBasis PropsMatrices PropsUnisolvent PropsEdgeNodes PropsGradGood PropsSBP PropsModalDecay PropsLebesgue.
Import ListNotations.
Local Open Scope R_scope.

(** A simplex, or a product of a number of simplices other than one, of positive dimension. *)
Definition element (sh : shape) : Prop :=
  (exists d, (1 <= d)%nat /\ sh = Simplex d)
  \/ exists c ds, sh = flat_product c ds /\ length ds <> 1%nat /\ Forall (fun d => (1 <= d)%nat) ds.

Lemma flat_space c ds n : length ds <> 1%nat -> space_for_shape (flat_product c ds) (OInt n) = Ok (TPSpace STensorProduct (map (fun d => PN d n) ds)).
Proof.
  intros N. unfold flat_product. cbn [space_for_shape bind]. rewrite map_length. rewrite zipM_pn by now rewrite repeat_length. cbn [bind].
  assert (E : pn_list ds (repeat n (length ds)) = map (fun d => PN d n) ds) by (unfold pn_list; clear; induction ds; cbn; congruence). rewrite E.
  assert (F : space_flatten (map (fun d => PN d n) ds) = map (fun d => PN d n) ds)
    by (unfold space_flatten, concat_tuples; clear; induction ds as [|d ds IH]; [easy|]; cbn [map concat app] in *; now rewrite IH).
  destruct ds as [|d1 [|d2 ds]]; [reflexivity|now elim N|]. cbn [map mk_TensorProductSpace]. unfold tps_init. f_equal. f_equal. exact F.
Qed.
Lemma flat_fits c ds n : fits (TPSpace STensorProduct (map (fun d => PN d n) ds)) (flat_product c ds).
Proof.
  unfold flat_product. replace (total ds) with (total (map shape_dim (map Simplex ds))) by (rewrite map_map; cbn [shape_dim]; now rewrite map_id).
  constructor. induction ds; cbn [map]; constructor; [constructor|easy].
Qed.
Lemma element_space sh n : element sh -> exists sp, space_for_shape sh (OInt n) = Ok sp /\ fits sp sh /\ pos_dims sp.
Proof.
  intros [(d & Hd & ->)|(c & ds & -> & N & Hd)].
  - exists (PN d n). split; [reflexivity|]. split; constructor. easy.
  - eexists. split; [now apply flat_space|]. split; [apply flat_fits|]. constructor. clear N. induction Hd; cbn [map]; constructor; [now constructor|easy].
Qed.

(** ** The sample points *)
Definition huge (n : nat) (sh : shape) : nat := ((if shape_dim sh =? 2 then 30 else 10) * n)%nat.
Definition lattice_points (N : nat) (d : nat) : list (list R) := map (map (node_coord N)) (gnitsam N d).
Lemma sample_coord N t : 2 * (INR t / INR N) - 1 = node_coord N t.
Proof. unfold node_coord. ring. Qed.
Lemma flat_tuples c ds N : node_tuples_for_space (TPSpace c (map (fun d => PN d N) ds)) = Ok (tp_tuples (map (fun d => gnitsam N d) ds)).
Proof.
  apply node_tuples_tp_eq. induction ds as [|d ds IH]; [reflexivity|]. cbn [map mapM]. rewrite IH. reflexivity.
Qed.
Lemma parts_in N ds parts : Forall2 (fun x l => In x l) parts (map (fun d => gnitsam N d) ds) -> Forall2 (fun t d => length t = d /\ (total t <= N)%nat) parts ds.
Proof.
  revert parts. induction ds as [|d ds IH]; intros parts H; inversion H as [|t ? ps ? H1 H2]; subst; constructor; [|now apply IH]. now apply gnitsam_in in H1.
Qed.
Lemma good_order d n m x : good_point (SimplexONB d n) x -> good_point (SimplexONB d m) x.
Proof. destruct d as [|[|[|[|d]]]]; cbn [good_point]; auto. Qed.

Lemma flat_good N m ds bs parts : (0 < N)%nat -> INR N < 2 * 10 ^ 10 ->
  Forall2 basis_of (map (fun d => PN d m) ds) bs -> Forall2 (fun t d => length t = d /\ (total t <= N)%nat) parts ds ->
  good_point_all bs (map (node_coord N) (concat parts)).
Proof.
  intros HN HB. revert bs parts. induction ds as [|d ds IH]; intros bs parts HF HP; inversion HF as [|? b ? bs' F1 F2]; subst; [exact I|].
  inversion HP as [|t ? ps ? [P1 P2] P3]; subst. cbn [good_point_all concat]. rewrite map_app. pose proof (basis_of_dim _ _ F1) as Db. cbn [spatial_dim] in Db.
  rewrite Db. pose proof (map_length (node_coord N) t) as LT. assert (LT' := eq_sym LT). rewrite LT', firstn_app_len, skipn_app_len. split; [|now apply IH].
  apply (good_pn b (length t) m); [easy|]. apply (good_order _ N). now apply good_lattice.
Qed.
Lemma flat_in c N ds parts : (0 < N)%nat -> Forall2 (fun t d => length t = d /\ (total t <= N)%nat) parts ds ->
  in_shape (flat_product c ds) (map (node_coord N) (concat parts)).
Proof.
  intros HN H. unfold flat_product. cbn [in_shape]. generalize (total ds). intros _. induction H as [|t d ps ds [H1 H2] H IH]; [reflexivity|].
  cbn [map concat]. rewrite map_app. eexists _, _. split; [reflexivity|]. split; [now apply node_in_simplex|exact IH].
Qed.
Lemma flat_len N ds parts : Forall2 (fun t d => length t = d /\ (total t <= N)%nat) parts ds -> length (map (node_coord N) (concat parts)) = total ds.
Proof.
  intros H. rewrite map_length. induction H as [|t d ps ds [H1 H2] H IH]; [reflexivity|]. cbn [concat]. rewrite app_length, IH, H1. reflexivity.
Qed.

Lemma samples n sh : element sh -> (1 <= n)%nat -> exists ys, sample_points n sh ys /\ ys <> [] /\ forall y, In y ys -> in_shape sh y /\ length y = shape_dim sh
  /\ forall m sp b, space_for_shape sh (OInt m) = Ok sp -> basis_for_space sp sh = Ok b -> INR (huge n sh) < 2 * 10 ^ 10 -> good_point b y.
Proof.
  intros HE Hn. pose proof HE as HE0. set (N := huge n sh). assert (HN : (0 < N)%nat) by (unfold N, huge; destruct (shape_dim sh =? 2); lia).
  destruct HE as [(d & Hd & ->)|(c & ds & -> & NE & Hd)].
  - exists (lattice_points N d). split; [|split].
    + exists (PN d N), (gnitsam N d). cbv zeta. split; [reflexivity|]. split; [reflexivity|]. unfold lattice_points. apply map_ext. intros t. apply map_ext. intros k. symmetry. apply sample_coord.
    + unfold lattice_points. pose proof (gnitsam_first N d) as G. destruct (gnitsam N d); discriminate.
    + intros y Hy. apply in_map_iff in Hy. destruct Hy as (t & <- & Ht). apply gnitsam_in in Ht. destruct Ht as [L T]. split; [|split].
      * cbn [in_shape]. now apply node_in_simplex.
      * now rewrite map_length.
      * intros m sp b Es Eb HB. destruct (element_space _ m HE0) as (sp' & Es' & HF & HP). assert (sp' = sp) by congruence. subst sp'.
        destruct (basis_for_basis_of sp _ HF HP) as (b' & Eb' & Hb). assert (b' = b) by congruence. subst b'.
        cbn [space_for_shape] in Es. assert (sp = PN d m) as -> by congruence. apply (good_pn b d m); [easy|]. apply (good_order _ N). now apply good_lattice.
  - exists (map (map (node_coord N)) (tp_tuples (map (fun d => gnitsam N d) ds))). split; [|split].
    + eexists _, _. cbv zeta. split; [now apply flat_space|]. split; [apply flat_tuples|]. apply map_ext. intros t. apply map_ext. intros k. symmetry. apply sample_coord.
    + intros E. apply (f_equal (@length _)) in E. rewrite map_length, tp_tuples_length in E. cbn [length] in E. revert E. clearbody N. clear. induction ds as [|d ds IH]; cbn [map]; [discriminate|].
      change (prod_nat (length (gnitsam N d) :: map (@length _) (map (fun d0 : nat => gnitsam N d0) ds))) with (length (gnitsam N d) * prod_nat (map (@length _) (map (fun d0 : nat => gnitsam N d0) ds)))%nat.
      intros E. apply Nat.eq_mul_0 in E. destruct E as [E|E]; [|exact (IH E)]. pose proof (gnitsam_first N d) as G. destruct (gnitsam N d); discriminate.
    + intros y Hy. apply in_map_iff in Hy. destruct Hy as (t & <- & Ht). apply tp_tuples_in in Ht. destruct Ht as (parts & HP & ->). apply parts_in in HP. split; [now apply flat_in|]. split; [now apply (flat_len N)|].
      intros m sp b Es Eb HB. destruct (element_space _ m HE0) as (sp' & Es' & HF & HD). assert (sp' = sp) by congruence. subst sp'.
      destruct (basis_for_basis_of sp _ HF HD) as (b' & Eb' & Hb). assert (b' = b) by congruence. subst b'.
      rewrite (flat_space c ds m NE) in Es. assert (sp = TPSpace STensorProduct (map (fun d => PN d m) ds)) as -> by congruence.
      inversion Hb as [| |? ? bs HB']; subst. apply good_point_TP. eapply flat_good; eauto.
Qed.

(** ** The Lebesgue constant *)
(** The nodes determine the polynomials of the space, and the default basis is evaluated at none of them inside a
    tolerance strip. *)
Definition nodes_fit (sp : fspace) (sh : shape) (nodes : list (list R)) : Prop :=
  determine sp nodes /\ forall b x, basis_for_space sp sh = Ok b -> In x nodes -> good_point b x.

Lemma estimate_defined n sh nodes sp : (1 <= n)%nat -> element sh -> space_for_shape sh (OInt n) = Ok sp -> nodes_fit sp sh nodes ->
  exists L, estimate_lebesgue_constant n (shape_dim sh) nodes sh = Ok L.
Proof.
  intros Hn HE Es [HD HG]. destruct (element_space sh n HE) as (sp' & Es' & HF & HP). assert (sp' = sp) by congruence. subst sp'.
  destruct (C66_bases sp sh nodes HF HD) as (_ & _ & HB). destruct (HB HP) as (b & Eb & Hb). destruct (Hb (fun x Hx => HG b x Eb Hx)) as (fs & Ef & D1 & LF & HI).
  destruct (samples n sh HE Hn) as (ys & (hs & ts & Eh & Et & Ey) & NE & HY). cbv zeta in Eh.
  unfold estimate_lebesgue_constant. rewrite Nat.eqb_refl. cbn [negb]. unfold evaluate_lebesgue_function. rewrite Es. cbn [bind].
  change (lebesgue_huge_n n sh) with (huge n sh). change ((if shape_dim sh =? 2 then 30 else 10) * n)%nat with (huge n sh) in *.
  rewrite Eh. cbn [bind]. rewrite Eb. cbn [bind]. rewrite Et. cbn [bind].
  destruct (element_space sh (huge n sh) HE) as (hs' & Eh' & HF' & _). assert (hs' = hs) by congruence. subst hs'. rewrite (fits_dim _ _ HF'), Nat.eqb_refl. cbn [negb].
  rewrite Ef. cbn [bind]. assert (EY : lebesgue_equi_nodes (huge n sh) ts = ys).
  { rewrite Ey. unfold lebesgue_equi_nodes. apply map_ext. intros t. apply map_ext. intros k. ring. }
  rewrite EY. destruct (C24_constructors sp sh b ltac:(auto)) as [HW HDm].
  assert (D2 : defined_on fs ys).
  { eapply basis_defined; eauto. intros x Hx. rewrite (fits_dim _ _ HF). now apply HY. }
  destruct (vandermonde_succeeds _ _ D1) as (A & EA). destruct (vandermonde_succeeds _ _ D2) as (B & EB).
  rewrite EA. cbn [bind]. rewrite EB. cbn [bind].
  destruct (vandermonde_inv _ _ _ EA) as (RA & CA & HA & _). destruct (vandermonde_inv _ _ _ EB) as (RB & CB & HB' & _).
  destruct (@np_solve_succeeds (mT A) (mT B)) as (X & EX); cbn [mT nrows ncols ent].
  { exact (eq_trans (eq_trans CA LF) (eq_sym RA)). }
  { congruence. }
  { rewrite (eq_trans CA LF), <- RA. apply nonsing_tr. now apply (nonsing_V _ _ _ EA LF). }
  rewrite EX. cbn [bind fst]. destruct (np_solve_ok EX) as (_ & _ & _ & S4 & _ & _). cbn [mT nrows ncols] in S4.
  cbn [mT nrows ncols ent]. rewrite S4, RB. destruct ys as [|y ys]; [now elim NE|]. cbn [length seq map np_max]. eexists. reflexivity.
Qed.

(** The estimate is computed without error; it bounds every polynomial of the space at every sample point by its
    values at the nodes, with equality for some polynomial.  The sample points are in the element. *)
Theorem C75_lebesgue n sh nodes sp : (1 <= n)%nat -> INR (30 * n) < 2 * 10 ^ 10 -> element sh -> space_for_shape sh (OInt n) = Ok sp -> nodes_fit sp sh nodes ->
  exists L ys, estimate_lebesgue_constant n (shape_dim sh) nodes sh = Ok L /\ sample_points n sh ys
    /\ (forall y, In y ys -> in_shape sh y)
    /\ (forall f B y, in_space sp f -> (forall x, In x nodes -> Rabs (f x) <= B) -> In y ys -> Rabs (f y) <= L * B)
    /\ (exists f y, in_space sp f /\ In y ys /\ (forall x, In x nodes -> Rabs (f x) <= 1) /\ f y = L).
Proof.
  intros Hn HB HE Es HN. destruct (estimate_defined n sh nodes sp Hn HE Es HN) as (L & EL).
  destruct (C31_bound n _ nodes sh L Hn EL) as (fs & ys & (sp' & b & Es' & Eb & Ef) & HS & _ & H1 & (c & y & Hy & Hc & Hm)).
  assert (sp' = sp) by congruence. subst sp'. destruct (element_space sh n HE) as (sp' & Es'' & HF & HP). assert (sp' = sp) by congruence. subst sp'.
  destruct (samples n sh HE Hn) as (ys' & (hs' & ts' & Eh' & Et' & Ey') & _ & HY). cbv zeta in Eh'. destruct HS as (hs & ts & Eh & Et & Ey). cbv zeta in Eh.
  assert (hs' = hs) by congruence. subst hs'. assert (ts' = ts) by congruence. subst ts'. assert (YY : ys' = ys) by (now rewrite Ey', Ey). rewrite YY in HY.
  destruct HN as [(Ln & Hd & HU) HG].
  assert (HO : offered sp sh b) by (right; right; auto).
  assert (HH : INR (huge n sh) < 2 * 10 ^ 10).
  { eapply Rle_lt_trans; [apply le_INR|exact HB]. unfold huge. destruct (shape_dim sh =? 2); lia. }
  assert (GY : forall z, In z ys -> length z = spatial_dim sp /\ good_point b z).
  { intros z Hz. destruct (HY z Hz) as (_ & L1 & G). rewrite (fits_dim _ _ HF). split; [easy|]. now apply (G n sp b). }
  assert (GX : forall z, In z nodes -> length z = spatial_dim sp /\ good_point b z).
  { intros z Hz. split; [now apply Hd|now apply HG]. }
  exists L, ys. split; [easy|]. split; [exists hs, ts; auto|]. split; [intros z Hz; now apply HY|]. split.
  - intros f B z Hf Hx Hz. destruct (coefficients sp sh b fs f HF HO Ef Hf) as (k & Hk). destruct (GY z Hz) as [L1 G1]. rewrite <- (Hk z L1 G1).
    apply H1; [easy|]. intros x X. destruct (GX x X) as [L2 G2]. rewrite (Hk x L2 G2). now apply Hx.
  - destruct (basis_modes sp b (offered_basis sp sh b HF HO)) as (ms & HM). assert (fs = map fst ms) as -> by (destruct HM as (X & _); congruence).
    exists (combo (map snd ms) c), y. split; [|split; [easy|split]].
    + apply combo_in_space. destruct HM as (_ & _ & HM). eapply Forall_impl; [|exact HM]. now intros m [? _].
    + intros x Hx. destruct (GX x Hx) as [L2 G2]. rewrite <- (modes_lin sp b ms c x HM L2 G2). now apply Hc.
    + destruct (GY y Hy) as [L2 G2]. rewrite <- (modes_lin sp b ms c y HM L2 G2). exact Hm.
Qed.

(** It never exceeds the Lebesgue constant: no smaller number bounds the interpolation operator on the element. *)
Theorem C75_lower_bound n sh nodes sp L Lam : (1 <= n)%nat -> INR (30 * n) < 2 * 10 ^ 10 -> element sh -> space_for_shape sh (OInt n) = Ok sp -> nodes_fit sp sh nodes ->
  estimate_lebesgue_constant n (shape_dim sh) nodes sh = Ok L ->
  (forall f x, in_space sp f -> in_shape sh x -> (forall z, In z nodes -> Rabs (f z) <= 1) -> Rabs (f x) <= Lam) -> L <= Lam.
Proof.
  intros Hn HB HE Es HN EL H. destruct (C75_lebesgue n sh nodes sp Hn HB HE Es HN) as (L' & ys & EL' & _ & HI & _ & (f & y & Hf & Hy & Hx & <-)).
  assert (EE : f y = L) by congruence. rewrite <- EE. eapply Rle_trans; [apply Rle_abs|]. apply H; auto.
Qed.

(** The estimate does not depend on the order of the nodes. *)
Theorem C75_permutation n sh nodes nodes' sp L : (1 <= n)%nat -> INR (30 * n) < 2 * 10 ^ 10 -> element sh -> space_for_shape sh (OInt n) = Ok sp -> nodes_fit sp sh nodes ->
  Permutation nodes nodes' -> estimate_lebesgue_constant n (shape_dim sh) nodes sh = Ok L -> estimate_lebesgue_constant n (shape_dim sh) nodes' sh = Ok L.
Proof.
  intros Hn HB HE Es HN HP EL.
  assert (HN' : nodes_fit sp sh nodes').
  { destruct HN as [(A & B & C) D]. split; [split; [|split]|].
    - exact (eq_trans (eq_sym (Permutation_length HP)) A).
    - intros x Hx. apply B. eapply Permutation_in; [apply Permutation_sym, HP|easy].
    - intros f Hf Hz. apply C; [easy|]. intros x Hx. apply Hz. eapply Permutation_in; eauto.
    - intros b x Hb Hx. apply (D b x Hb). eapply Permutation_in; [apply Permutation_sym, HP|easy]. }
  destruct (C75_lebesgue n sh nodes sp Hn HB HE Es HN) as (L1 & ys & E1 & S1 & _ & U1 & (f1 & y1 & A1 & B1 & C1 & D1)).
  destruct (C75_lebesgue n sh nodes' sp Hn HB HE Es HN') as (L2 & ys' & E2 & S2 & _ & U2 & (f2 & y2 & A2 & B2 & C2 & D2)).
  assert (ys' = ys).
  { destruct S1 as (h1 & t1 & P1 & Q1 & R1). destruct S2 as (h2 & t2 & P2 & Q2 & R2). cbv zeta in *. assert (h1 = h2) by congruence. subst h2. assert (t1 = t2) by congruence. subst t2. now rewrite R1, R2. }
  subst ys'. rewrite E2. f_equal. assert (LL : L1 = L) by congruence. rewrite LL in U1, D1.
  assert (X1 : Rabs (f2 y2) <= L * 1) by (apply (U1 f2 1 y2); auto; intros x Hx; apply C2; eapply Permutation_in; eauto).
  assert (X2 : Rabs (f1 y1) <= L2 * 1) by (apply (U2 f1 1 y1); auto; intros x Hx; apply C1; eapply Permutation_in; [apply Permutation_sym, HP|easy]).
  pose proof (Rle_abs (f2 y2)). pose proof (Rle_abs (f1 y1)). lra.
Qed.

(** Equispaced and edge-clustered nodes meet the hypothesis. *)
Theorem C75_equispaced n sh sp : INR n < 2 * 10 ^ 10 -> element sh -> space_for_shape sh (OInt n) = Ok sp ->
  exists p, equispaced_nodes_for_space sp sh = Ok p /\ nodes_fit sp sh (pts_cols p).
Proof.
  intros HB HE Es. destruct (element_space sh n HE) as (sp' & Es' & HF & HP). assert (sp' = sp) by congruence. subst sp'.
  assert (HO : orders_ok sp).
  { destruct HE as [(d & Hd & ->)|(c & ds & -> & NE & Hd)].
    - assert (sp = PN d n) as -> by (cbn in Es; congruence). now constructor.
    - rewrite (flat_space c ds n NE) in Es. assert (sp = TPSpace STensorProduct (map (fun d => PN d n) ds)) as -> by congruence. constructor. clear -HB. induction ds; cbn [map]; constructor; [now constructor|easy]. }
  destruct (equi_nodes sp sh HF HO) as (p & E & HN). exists p. split; [easy|]. split; [exact (nodes_of_space_nodes _ _ HN)|].
  intros b x Eb Hx. destruct (basis_for_basis_of sp sh HF HP) as (b' & Eb' & Hb). assert (b' = b) by congruence. subst b'. exact (nodes_good sp b _ Hb HN x Hx).
Qed.
Theorem C75_edge_clustered eigh rj n sh sp : edge_ok eigh sp -> element sh -> space_for_shape sh (OInt n) = Ok sp ->
  exists p, edge_clustered_nodes_for_space eigh rj sp sh = Ok p /\ nodes_fit sp sh (pts_cols p).
Proof.
  intros HO HE Es. destruct (element_space sh n HE) as (sp' & Es' & HF & HP). assert (sp' = sp) by congruence. subst sp'.
  destruct (edge_nodes eigh rj sp sh HF HO) as (p & E & _ & HN). exists p. split; [easy|]. split; [exact (nodes_of_space_nodes _ _ HN)|].
  intros b x Eb Hx. destruct (basis_for_basis_of sp sh HF HP) as (b' & Eb' & Hb). assert (b' = b) by congruence. subst b'. exact (nodes_good sp b _ Hb HN x Hx).
Qed.

(** ** Modal coefficient estimators *)
(** Spaces without an empty product. *)
Inductive factors_nonempty : fspace -> Prop :=
| fn_pn d n : factors_nonempty (PN d n)
| fn_tp c ss : ss <> [] -> Forall factors_nonempty ss -> factors_nonempty (TPSpace c ss).
Lemma basis_nonempty s : forall b, factors_nonempty s -> basis_of s b -> tp_nonempty b.
Proof.
  induction s as [d n|c ss IH] using fspace_ind'; intros b HN HB; inversion HN as [|? ? NE HF]; subst; inversion HB as [| |? ? bs HB']; subst; try constructor.
  - intros ->. inversion HB'. now subst.
  - clear HN HB NE. induction HB' as [|s b ss bs Hb HB IHB]; [constructor|]. inversion IH; subst. inversion HF; subst. constructor; auto.
Qed.

(** Applied to the nodal values of a polynomial of the space, the estimator matrix gives its expansion coefficients
    with respect to the orthonormal modes of the highest degrees. *)
Theorem C75_estimator s sh b nodes k : fits s sh -> pn_dims 1 3 s -> factors_nonempty s -> orthonormal_basis_for_space s sh = Ok b ->
  determine s nodes -> (forall x, In x nodes -> good_point b x) ->
  exists C phis dv mx idxs, interp_error_coefficient_estimator_matrix nodes k b = Ok C
    /\ orthonormal_on sh phis /\ length phis = space_dim s /\ (forall phi, In phi phis -> in_space s phi)
    /\ degree_vector b = Ok dv /\ length dv = space_dim s /\ In mx dv /\ (forall d, In d dv -> (d <= mx)%nat)
    /\ StronglySorted lt idxs
    /\ (forall m, In m idxs <-> (m < space_dim s)%nat /\ (Z.of_nat mx - Z.of_nat k < Z.of_nat (nth m dv 0%nat))%Z)
    /\ nrows C = length idxs
    /\ forall f r, in_space s f -> (r < length idxs)%nat ->
         is_int sh (fun x => f x * nth (nth r idxs 0%nat) phis (fun _ => 0) x) (rsum (fun i => ent C r i * f (pt nodes i)) (length nodes)).
Proof.
  intros HF HP HE Eb HD HG. destruct (C65_span s sh HF HP) as (b' & fs & phis & Eb' & Ef & Lp & Lf & HO & HV & HC & HS).
  assert (b' = b) by congruence. subst b'. destruct (onb_basis_of s sh HF HP) as (b' & Eb'' & Hb). assert (b' = b) by congruence. subst b'.
  destruct (C66_bases s sh nodes HF HD) as (_ & HU & _). destruct (HU HP) as (b' & Eb3 & HU'). assert (b' = b) by congruence. subst b'.
  destruct (HU' HG) as (fs' & Ef' & D1 & U1). assert (fs' = fs) by congruence. subst fs'.
  assert (H0 : onb_dims 0 3 b).
  { destruct (basis_of_wf s b Hb) as [_ H]. revert H. clear. revert b. fix IH 2. intros b H. destruct H as [d n Hd|d n|bs ds H]; constructor; [lia|].
    induction H; constructor; auto. }
  destruct (C46_estimator b fs nodes k H0 (basis_nonempty s b HE Hb) Ef D1 U1) as (dv & C & idxs & mx & Ed & Ld & M1 & M2 & EC & SS & HI & RC & HX).
  assert (Ld' : length dv = space_dim s) by exact (eq_trans Ld Lf).
  exists C, phis, dv, mx, idxs. split; [exact EC|]. split; [exact HO|]. split; [exact Lp|]. split.
  { intros phi Hphi. destruct (In_nth_error _ _ Hphi) as (j & Hj). destruct (nth_error fs j) as [g|] eqn:Eg.
    - now apply (HV j g phi).
    - apply nth_error_None in Eg. assert (X : nth_error phis j <> None) by congruence. apply nth_error_Some in X. rewrite Lp in X. rewrite Lf in Eg. lia. }
  split; [exact Ed|]. split; [exact Ld'|]. split; [exact M1|]. split; [exact M2|]. split; [exact SS|]. split.
  { intros m. rewrite HI. now rewrite Lf. }
  split; [exact RC|]. intros f r Hf Hr. destruct (HS f Hf) as (c & Hc). destruct HD as (Ln & Hd & _).
  assert (Hm : (nth r idxs 0 < length phis)%nat).
  { rewrite Lp, <- Lf. apply HI. now apply nth_In. }
  set (m := nth r idxs 0%nat) in *.
  assert (E : rsum (fun i => ent C r i * f (pt nodes i)) (length nodes) = c m).
  { refine (eq_trans _ (HX c r Hr)). apply rsum_ext. intros i Hi. f_equal. assert (Hin := pt_in _ _ Hi). rewrite Hc by (now apply Hd).
    unfold lin, combo. rewrite Lp, <- Lf. apply rsum_ext. intros j Hj. f_equal.
    destruct (nth_error fs j) as [g|] eqn:Eg; [|apply nth_error_None in Eg; exfalso; revert Eg Hj; apply Nat.le_ngt].
    destruct (nth_error phis j) as [phi|] eqn:Ep; [|apply nth_error_None in Ep; rewrite Lp, <- Lf in Ep; exfalso; revert Ep Hj; apply Nat.le_ngt].
    rewrite (nth_error_nth phis j _ Ep). unfold fn. rewrite (nth_error_nth fs j _ Eg). destruct (HV j g phi Eg Ep) as [_ V0]. unfold valR. rewrite V0; auto. }
  rewrite E. eapply is_int_ext with (f := fun x => combo phis c x * combo phis (fun j => delta j m) x).
  - intros x Hx. assert (Lx : length x = spatial_dim s) by (rewrite (fits_dim _ _ HF); exact (in_shape_len sh (fits_ok s sh HF) x Hx)). rewrite (Hc x Lx). f_equal.
    unfold combo. rewrite (rsum_single _ _ m Hm).
    + unfold delta. rewrite Nat.eqb_refl. ring.
    + intros j Hj Hne. unfold delta. destruct (Nat.eqb_spec j m); [congruence|ring].
  - pose proof (int_combo sh phis c (fun j => delta j m) HO) as HIc. eapply is_int_cast; [exact HIc|].
    rewrite (rsum_single _ _ m Hm).
    + unfold delta. rewrite Nat.eqb_refl. ring.
    + intros j Hj Hne. unfold delta. destruct (Nat.eqb_spec j m); [congruence|ring].
Qed.

(** The prism of order 3: an element, its equispaced nodes determine the space, and both theorems apply. *)
Example C75_example : let prism := flat_product CTensorProduct [2%nat; 1%nat] in
  element prism /\ exists sp p b L C, space_for_shape prism (OInt 3) = Ok sp /\ equispaced_nodes_for_space sp prism = Ok p /\ length (pts_cols p) = 40%nat
    /\ estimate_lebesgue_constant 3 3 (pts_cols p) prism = Ok L /\ 1 <= L
    /\ orthonormal_basis_for_space sp prism = Ok b /\ interp_error_coefficient_estimator_matrix (pts_cols p) 1 b = Ok C.
Proof.
  set (prism := flat_product CTensorProduct [2%nat; 1%nat]). assert (HE : element prism).
  { right. exists CTensorProduct, [2%nat; 1%nat]. split; [reflexivity|]. split; [discriminate|]. repeat constructor. }
  split; [exact HE|]. assert (Es : space_for_shape prism (OInt 3) = Ok (TPSpace STensorProduct [PN 2 3; PN 1 3])) by reflexivity.
  set (sp := TPSpace STensorProduct [PN 2 3; PN 1 3]) in *.
  assert (B3 : INR 3 < 2 * 10 ^ 10) by (cbn [INR]; lra).
  destruct (C75_equispaced 3 prism sp B3 HE Es) as (p & Ep & HN).
  assert (B90 : INR (30 * 3) < 2 * 10 ^ 10).
  { rewrite mult_INR. replace (INR 30) with 30 by (rewrite INR_IZR_INZ; reflexivity). cbn [INR]. lra. }
  destruct (C75_lebesgue 3 prism _ sp ltac:(lia) B90 HE Es HN) as (L & _ & EL & _).
  assert (HF : fits sp prism) by (apply (flat_fits CTensorProduct [2%nat; 1%nat] 3)).
  assert (HP : pn_dims 1 3 sp) by (repeat constructor).
  destruct (onb_basis_of sp prism HF HP) as (b & Eb & Hb).
  assert (HO : orders_ok sp) by (repeat (constructor; try exact B3)).
  destruct (equi_nodes sp prism HF HO) as (p' & Ep' & HN'). assert (p' = p) by congruence. subst p'.
  destruct (C75_estimator sp prism b (pts_cols p) 1 HF HP) as (C & _ & _ & _ & _ & EC & _).
  - constructor; [discriminate|]. repeat constructor.
  - exact Eb.
  - exact (proj1 HN).
  - intros x Hx. exact (nodes_good sp b _ Hb HN' x Hx).
  - exists sp, p, b, L, C. repeat (split; [assumption|]). split; [|split; [exact EL|split; [exact (C31_at_least_one 3 _ _ _ L ltac:(lia) EL)|split; assumption]]].
    exact (proj1 (proj1 HN)).
Qed.
(** Every shape with a supported face set is an element. *)
Example C75_example_elements : element (Simplex 2) /\ element (Simplex 3) /\ element (flat_product CHypercube [1%nat; 1%nat]) /\ element (flat_product CHypercube [1%nat; 1%nat; 1%nat]).
Proof.
  split; [left; exists 2%nat; split; [lia|reflexivity]|]. split; [left; exists 3%nat; split; [lia|reflexivity]|].
  split; right; eexists _, _; (split; [reflexivity|]); (split; [discriminate|]); repeat constructor.
Qed.

Print Assumptions C75_lebesgue.
Print Assumptions C75_lower_bound.
Print Assumptions C75_permutation.
Print Assumptions C75_equispaced.
Print Assumptions C75_edge_clustered.
Print Assumptions C75_estimator.
