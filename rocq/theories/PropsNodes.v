(** * Properties C05, C06, C13, C14. *)
From Coq Require Import List Arith Bool ZArith Reals Lra Lia.
From Verif Require Import Py PyToolsModel ModelNd ModelShapes ModelSpaces ModelNodes ModelReshape
  ModelModes ModelBasis EnumFacts SpecIndex SpecGeometry ProofNodeTuples ProofTPNodes ProofReshape
  ProofShapes ProofBasisIndex ProofTPCall ProofEquispaced.
Import ListNotations.

(** ** C05.  [fits space shape]: same tree of factors, dimensions agree.
    For digits (i_1, ..., i_m) with i_j smaller than the j-th factor's dimension,
    position k = mixed_radix digits in each of the four lists belongs to the i_j-th
    items of the factors' lists, and it is where reshaping puts index (i_1,...,i_m). *)
Theorem C05_shared_ordering : forall c bs c' shs,
  fits (TPSpace c bs) (TPShape c' (total (map shape_dim shs)) shs) ->
  Forall (pn_dims 0 3) bs ->
  let space := TPSpace c bs in
  let sh := TPShape c' (total (map shape_dim shs)) shs in
  let ns := map space_dim bs in
  exists tuples tupless nodes nodess bas bass ids idss fs fss,
    node_tuples_for_space space = Ok tuples
    /\ Forall2 (fun b l => node_tuples_for_space b = Ok l) bs tupless
    /\ equispaced_nodes_for_space space sh = Ok nodes
    /\ Forall2 (fun '(b, s) p => equispaced_nodes_for_space b s = Ok p) (combine bs shs) nodess
    /\ orthonormal_basis_for_space space sh = Ok bas
    /\ Forall2 (fun '(b, s) q => orthonormal_basis_for_space b s = Ok q) (combine bs shs) bass
    /\ mode_ids bas = Ok ids
    /\ Forall2 (fun q l => mode_ids q = Ok l) bass idss
    /\ functions Rops bas = Ok fs
    /\ Forall2 (fun q l => functions Rops q = Ok l) bass fss
    /\ forall digits, legal_digits ns digits ->
       let k := mixed_radix ns digits in
       (exists ts, selects tupless digits ts /\ nth_error tuples k = Some (concat ts))
       /\ (exists xs, selects (map pts_cols nodess) digits xs /\ nth_error (pts_cols nodes) k = Some (concat xs))
       /\ (exists ms, selects idss digits ms /\ nth_error ids k = Some (MTuple (id_entries idss ms)))
       /\ (exists gs f, selects fss digits gs /\ nth_error fs k = Some f
             /\ forall xs vs, block_values (map spatial_dim bs) gs xs vs ->
                  f (concat xs) = Ok (fold_right Rmult 1%R vs))
       /\ (forall (A : Type) (u : ndarray A), nd_shape u = [space_dim space] ->
             exists a, reshape_array_for_tensor_product_space space u 0 = Ok a
               /\ nd_shape a = ns /\ nd_at a digits = nd_at u [k]).
Proof.
  intros c bs c' shs H Hp space sh ns.
  destruct (c02_proof c bs) as (tupless & tuples & T1 & T2 & _ & _ & _ & _ & T3).
  assert (Tl : map (@length _) tupless = ns).
  { unfold ns. clear -T1. induction T1 as [|b l bs ls E _ IH]; simpl; auto. f_equal; auto.
    destruct (node_tuples_ok b) as (l' & E' & L & _). congruence. }
  destruct (equi_tp_nth c bs c' shs H) as (nodes & nodess & N1 & N2 & N3 & N4).
  inversion H as [|? ? ? ? F]; subst.
  assert (exists bass, zipM (fun b s => orthonormal_basis_for_space b s) bs shs = Ok bass
     /\ Forall2 (fun '(b, s) q => orthonormal_basis_for_space b s = Ok q) (combine bs shs) bass
     /\ map basis_size bass = ns /\ Forall (onb_dims 0 3) bass) as (bass & B1 & B2 & B3 & B4).
  { unfold ns. clear -F Hp. induction F as [|b s bs shs Hbs F IH]; [exists []; repeat split; constructor|].
    inversion Hp as [|? ? P1 P2]; subst. destruct (onb_for_space _ _ Hbs) as (q & E & Eq). destruct (IH P2) as (l & E1 & E2 & E3 & E4).
    exists (q :: l). cbn [zipM combine]. rewrite E. cbn [bind]. rewrite E1. cbn [bind]. split; [reflexivity|].
    split; [constructor; auto|]. split; [simpl; congruence|]. constructor; auto.
    eapply onb_for_space_dims; eauto. }
  assert (exists idss, Forall2 (fun q l => mode_ids q = Ok l) bass idss /\ map (@length _) idss = ns) as (idss & I1 & I2).
  { rewrite <- B3. clear -B4. induction B4 as [|q bass Hq _ (idss & I1 & I2)]; [exists []; split; [constructor|reflexivity]|].
    destruct (mode_ids_size q Hq) as (l & E & _ & L). exists (l :: idss). split; [constructor; auto|]. simpl. congruence. }
  assert (exists fss, Forall2 (fun q l => functions Rops q = Ok l) bass fss /\ map (@length _) fss = ns) as (fss & F1 & F2).
  { rewrite <- B3. clear -B4. induction B4 as [|q bass Hq _ (idss & I1 & I2)]; [exists []; split; [constructor|reflexivity]|].
    destruct (functions_size Rops q Hq) as (l & E & L). exists (l :: idss). split; [constructor; auto|]. simpl. congruence. }
  exists tuples, tupless, nodes, nodess, (TPBasis bass (map spatial_dim bs)), bass, (tp_ids idss), idss,
    (tp_functions Rops (map spatial_dim bs) fss), fss.
  split; [exact T2|]. split; [exact T1|]. split; [exact N1|]. split; [exact N2|]. split.
  { unfold space, sh. cbn [orthonormal_basis_for_space]. rewrite (fits_dim _ _ H). cbn [shape_dim].
    rewrite Nat.eqb_refl. cbn [negb]. rewrite B1. reflexivity. }
  split; [exact B2|]. split.
  { apply (mode_ids_tp_eq _ _ _ ns); auto.
    - now apply mapM_Ok_Forall2.
    - apply mapM_Ok_Forall2. rewrite <- B3. clear -B4. induction B4; constructor; auto using nfunctions_size. }
  split; [exact I1|]. split; [apply functions_tp_eq; now apply mapM_Ok_Forall2|]. split; [exact F1|].
  intros digits Hd k. split; [|split; [|split; [|split]]].
  - rewrite Tl in T3. exact (T3 digits Hd).
  - exact (N4 digits Hd).
  - rewrite <- I2 in Hd. destruct (selects_exists _ _ Hd) as (ms & Hms). exists ms. split; auto.
    unfold k. rewrite mixed_radix_ravelF. rewrite <- I2. now apply tp_ids_nth.
  - rewrite <- F2 in Hd. destruct (selects_exists _ _ Hd) as (gs & Hgs). exists gs, (tp_call Rops (map spatial_dim bs) gs).
    split; auto. split.
    + unfold k. rewrite mixed_radix_ravelF, <- F2. now apply tp_functions_nth.
    + intros xs vs Hv. now apply tp_call_R.
  - intros A u Hu. destruct (reshape_ok c bs u [] [] 0%Z Hu) as (a & E & Sa & V).
    { rewrite Hu. left. reflexivity. }
    exists a. split; [exact E|]. simpl in Sa. rewrite app_nil_r in Sa. split; [exact Sa|].
    pose proof (V [] digits [] (Forall2_nil _) Hd (Forall2_nil _)) as V'. simpl in V'.
    rewrite app_nil_r in V'. rewrite V'. unfold k. reflexivity.
Qed.
Print Assumptions C05_shared_ordering.

Example C05_example :
  fits (TPSpace STensorProduct [PN 2 1; PN 1 2]) (TPShape CTensorProduct 3 [Simplex 2; Simplex 1])
  /\ Forall (pn_dims 0 3) [PN 2 1; PN 1 2]
  /\ legal_digits (map space_dim [PN 2 1; PN 1 2]) [2; 1]
  /\ mixed_radix (map space_dim [PN 2 1; PN 1 2]) [2; 1] = 5.
Proof.
  split; [|split; [|split]].
  - apply (fits_tp STensorProduct CTensorProduct [PN 2 1; PN 1 2] [Simplex 2; Simplex 1]). repeat constructor.
  - repeat (constructor; try lia).
  - repeat constructor; simpl; lia.
  - reflexivity.
Qed.

(** ** C06.  [pn_dims lo hi space]: all simplex factors have dimension between lo
    and hi (orthonormal bases are implemented for dimension at most 3, their
    gradients for dimension at least 1). *)
Theorem C06_orthonormal : forall s sh, fits s sh -> pn_dims 0 3 s ->
  exists b fs ids, orthonormal_basis_for_space s sh = Ok b
    /\ (forall (T : Type) (o : vops T), exists fs', functions o b = Ok fs' /\ length fs' = space_dim s)
    /\ functions Rops b = Ok fs /\ length fs = space_dim s
    /\ mode_ids b = Ok ids /\ NoDup ids /\ length ids = space_dim s
    /\ (pn_dims 1 3 s -> forall (T : Type) (o : vops T),
          exists gs, gradients o b = Ok gs /\ length gs = space_dim s).
Proof. exact c06_onb. Qed.
Print Assumptions C06_orthonormal.

Theorem C06_monomial : forall s sh, fits s sh ->
  exists b ids, monomial_basis_for_space s sh = Ok b
    /\ (forall (T : Type) (o : vops T), exists fs', functions o b = Ok fs' /\ length fs' = space_dim s)
    /\ (forall (T : Type) (o : vops T), exists gs, gradients o b = Ok gs /\ length gs = space_dim s)
    /\ mode_ids b = Ok ids /\ NoDup ids /\ length ids = space_dim s.
Proof. exact c06_mono. Qed.
Print Assumptions C06_monomial.

(** Arbitrarily nested TensorProductBasis objects built by hand. *)
Theorem C06_nested : forall b, onb_dims 0 3 b ->
  exists fs ids, functions Rops b = Ok fs /\ mode_ids b = Ok ids /\ NoDup ids /\ length ids = length fs.
Proof.
  intros b H. destruct (functions_size Rops b H) as (fs & E & L).
  destruct (mode_ids_size b H) as (ids & E' & N & L'). exists fs, ids. repeat split; auto. congruence.
Qed.
Print Assumptions C06_nested.

Example C06_example :
  let b := TPBasis [TPBasis [SimplexONB 1 1; SimplexONB 1 1] [1; 1]; SimplexMonomial 2 1] [2; 2] in
  onb_dims 0 3 b /\ option_map (@length _) (match mode_ids b with Ok l => Some l | Err _ => None end) = Some 12.
Proof. split; [repeat constructor; lia|reflexivity]. Qed.
Example C06_example_ids :
  mode_ids (TPBasis [SimplexONB 1 1; SimplexONB 2 1] [1; 2])
  = Ok [MTuple [MInt 0; MTuple [MInt 0; MInt 0]]; MTuple [MInt 1; MTuple [MInt 0; MInt 0]];
        MTuple [MInt 0; MTuple [MInt 1; MInt 0]]; MTuple [MInt 1; MTuple [MInt 1; MInt 0]];
        MTuple [MInt 0; MTuple [MInt 0; MInt 1]]; MTuple [MInt 1; MTuple [MInt 0; MInt 1]]].
Proof. reflexivity. Qed.

(** ** C13 *)
Theorem C13_equispaced_simplex : forall d n,
  exists p tuples, equispaced_nodes_for_space (PN d n) (Simplex d) = Ok p
    /\ equidistant_nodes d n None = Ok p
    /\ pts_dim p = d
    /\ node_tuples_for_space (PN d n) = Ok tuples
    /\ length (pts_cols p) = space_dim (PN d n)
    /\ Forall (in_simplex d) (pts_cols p)
    /\ NoDup (pts_cols p)
    /\ ((1 <= n)%nat ->
        Forall2 (fun x t => barycentric x = map (fun k => INR k / INR n)%R ((n - total t)%nat :: t))
                (pts_cols p) tuples
        /\ (forall v, In v (pts_cols (unit_vertices_for_simplex d)) -> In v (pts_cols p)))
    /\ (n = 0%nat -> exists x, pts_cols p = [x] /\ barycentric x = repeat (1 / (INR d + 1))%R (d + 1)).
Proof. exact c13_simplex. Qed.
Print Assumptions C13_equispaced_simplex.

Theorem C13_equispaced_product : forall s sh, fits s sh ->
  exists p, equispaced_nodes_for_space s sh = Ok p
    /\ pts_dim p = shape_dim sh
    /\ length (pts_cols p) = space_dim s
    /\ Forall (in_shape sh) (pts_cols p)
    /\ NoDup (pts_cols p)
    /\ (positive_orders s -> exists vs, unit_vertices_for_shape sh = Ok vs
          /\ forall v, In v (pts_cols vs) -> In v (pts_cols p)).
Proof.
  intros s sh H. destruct (equi_all s sh H) as (p & E & D & _ & L & I & N & V).
  exists p. rewrite <- (fits_dim _ _ H). repeat split; auto.
  intros Hp. destruct (V Hp) as (vs & Ev & _ & _ & Iv). exists vs. split; auto. now apply Forall_forall.
Qed.
Print Assumptions C13_equispaced_product.

Theorem C13_user_tuples : forall d n ts,
  (length ts <> space_dim (PN d n) -> equidistant_nodes d n (Some ts) = Err ValueError)
  /\ (length ts = space_dim (PN d n) -> (1 <= n)%nat ->
      exists p, equidistant_nodes d n (Some ts) = Ok p
        /\ pts_cols p = map (map (fun t => INR t / INR n * 2 - 1)%R) ts).
Proof. exact c13_user_tuples. Qed.
Print Assumptions C13_user_tuples.

(** Mismatched spaces and shapes. *)
Theorem C13_mismatch : forall d d' n, d <> d' ->
  equispaced_nodes_for_space (PN d n) (Simplex d') = Err ValueError.
Proof. intros d d' n H. simpl. destruct (Nat.eqb_spec d d'); [contradiction|reflexivity]. Qed.
Print Assumptions C13_mismatch.

Example C13_example : fits (mk_QN 2 3) (TPShape CHypercube 2 [Simplex 1; Simplex 1]) /\ positive_orders (mk_QN 2 3).
Proof.
  split.
  - apply (fits_tp SQN CHypercube [PN 1 3; PN 1 3] [Simplex 1; Simplex 1]). repeat constructor.
  - repeat constructor.
Qed.

(** ** C14.  [uniform_contract]: a draw of size (d, n) gives n columns of d numbers
    in [-1, 1].  [draws d st sizes batches st']: successive draws. *)
Theorem C14_random_simplex : forall (St : Type) (uniform : St -> nat -> nat -> list (list R) * St)
    fuel d nnodes st res st',
  uniform_contract uniform ->
  random_nodes_for_shape uniform fuel (Simplex d) nnodes st = Ok (res, st') ->
  length res = nnodes /\ Forall (in_simplex d) res
  /\ exists sizes batches, draws uniform d st sizes batches st'
       /\ res = filter (strictly_inside d) (concat batches).
Proof. exact @c14_simplex. Qed.
Print Assumptions C14_random_simplex.

Theorem C14_random_shape : forall (St : Type) (uniform : St -> nat -> nat -> list (list R) * St)
    fuel sh nnodes, uniform_contract uniform -> forall st res st',
  random_nodes_for_shape uniform fuel sh nnodes st = Ok (res, st') ->
  length res = nnodes /\ Forall (in_shape sh) res.
Proof. exact @c14_all. Qed.
Print Assumptions C14_random_shape.

(** A generator meeting the contract (always the vertex -1) and a run of it on a
    prism. *)
Example C14_example :
  let u := fun (st : nat) d n => (repeat (repeat (-1)%R d) n, S st) in
  uniform_contract u /\ exists res st', random_nodes_for_shape u 5 (TPShape CTensorProduct 3 [Simplex 2; Simplex 1]) 2 0 = Ok (res, st').
Proof.
  intros u. split.
  - intros st d n. unfold u; simpl. split; [apply repeat_length|]. apply Forall_forall. intros c Hc.
    apply repeat_spec in Hc as ->. split; [apply repeat_length|]. apply Forall_forall. intros x Hx.
    apply repeat_spec in Hx as ->. lra.
  - assert (A : forall d, (1 <= d)%nat -> accept_simplex d (repeat (-1)%R d) = true).
    { intros d Hd. unfold accept_simplex. destruct (Rlt_dec _ _) as [|n]; auto. exfalso; apply n.
      change sumR with list_sum. rewrite repeat_sum. lra. }
    eexists _, _. cbn [random_nodes_for_shape random_simplex_loop u fst snd repeat length Nat.sub filter].
    pose proof (A 2%nat ltac:(lia)) as A2. pose proof (A 1%nat ltac:(lia)) as A1. cbn [repeat] in A1, A2.
    rewrite !A2, !A1. reflexivity.
Qed.
