(** * Mode ids, functions and gradients of bases: counts, distinctness and
    ordering (C05, C06). *)
From Coq Require Import List Arith Bool ZArith Reals Lia.
From Verif Require Import Py PyToolsModel ModelNd ModelShapes ModelSpaces ModelModes ModelBasis
  EnumFacts SpecIndex ProofNodeTuples.
Import ListNotations.

Lemma basis_ind' (P : basis -> Prop) :
  (forall d n, P (SimplexONB d n)) -> (forall d n, P (SimplexMonomial d n)) ->
  (forall bs ds, Forall P bs -> P (TPBasis bs ds)) -> forall b, P b.
Proof.
  intros H1 H2 H3. fix IH 1. intros [d n|d n|bs ds].
  - apply H1.
  - apply H2.
  - apply H3. induction bs; constructor; auto.
Qed.

(** The function list of a tensor-product basis. *)
Definition tp_functions {T} (o : vops T) (dims : list nat) (fss : list (list (bfun (T:=T)))) : list (bfun (T:=T)) :=
  map (fun idx => tp_call o dims (match zipM (fun fs i => getitem fs i) fss idx with Ok p => p | Err _ => [] end))
      (enumF (map (@length _) fss)).

Lemma functions_tp_eq {T} (o : vops T) bs dims fss :
  mapM (functions o) bs = Ok fss -> functions o (TPBasis bs dims) = Ok (tp_functions o dims fss).
Proof.
  intros H. cbn [functions]. rewrite H. cbn [bind]. unfold mode_index_tuples. rewrite rev_gnitb_rev.
  apply mapM_Ok. intros idx Hidx. apply enumF_in in Hidx.
  destruct (selects_exists _ _ Hidx) as (p & Hp). now rewrite (selects_parts _ _ _ Hp).
Qed.
Lemma tp_functions_length {T} (o : vops T) dims fss :
  length (tp_functions o dims fss) = prod_nat (map (@length _) fss).
Proof. unfold tp_functions. now rewrite map_length, enumF_length. Qed.
Lemma tp_functions_nth {T} (o : vops T) dims fss idx p : selects fss idx p ->
  nth_error (tp_functions o dims fss) (ravelF (map (@length _) fss) idx) = Some (tp_call o dims p).
Proof.
  intros Hp. pose proof (selects_valid _ _ _ Hp) as Hv.
  unfold tp_functions. rewrite nth_error_map, enumF_nth by (now apply ravelF_lt).
  rewrite unravelF_ravelF by auto. simpl. now rewrite (selects_parts _ _ _ Hp).
Qed.

(** Mode ids of a product. *)
Definition unwrap (m : mode_id) : mode_id := match m with MTuple [x] => x | _ => m end.
Definition entry_of (flag : bool) (m : mode_id) : mode_id := if flag then unwrap m else m.
Definition tp_ids (lists : list (list mode_id)) : list mode_id :=
  map (fun idx => MTuple (map (fun q => entry_of (fst q) (snd q))
                            (combine (map (forallb is_singleton_with_int) lists)
                               (match zipM (fun fs i => getitem fs i) lists idx with Ok p => p | Err _ => [] end))))
      (enumF (map (@length _) lists)).

Lemma zipM_flags lists idx p : selects lists idx p ->
  zipM (fun (q : bool * list mode_id) i => let* m := getitem (snd q) i in Ok (fst q, m))
       (combine (map (forallb is_singleton_with_int) lists) lists) idx
  = Ok (combine (map (forallb is_singleton_with_int) lists) p)
  /\ part_flat (combine (map (forallb is_singleton_with_int) lists) p)
     = Ok (map (fun q => entry_of (fst q) (snd q)) (combine (map (forallb is_singleton_with_int) lists) p)).
Proof.
  induction 1 as [|l lists i idx a p Ha Hs [IH1 IH2]]; simpl; [split; reflexivity|].
  unfold getitem at 1. rewrite Ha. cbn [bind]. rewrite IH1. split; [reflexivity|].
  destruct (forallb is_singleton_with_int l) eqn:E.
  - rewrite forallb_forall in E. specialize (E a (nth_error_In _ _ Ha)).
    destruct a as [|[|[k|] [|]]]; simpl in E; try discriminate. rewrite IH2. reflexivity.
  - rewrite IH2. reflexivity.
Qed.

Lemma mode_ids_tp_eq bs dims lists counts :
  mapM mode_ids bs = Ok lists -> mapM nfunctions bs = Ok counts -> counts = map (@length _) lists ->
  mode_ids (TPBasis bs dims) = Ok (tp_ids lists).
Proof.
  intros H1 H2 ->. cbn [mode_ids]. rewrite H1. cbn [bind]. rewrite H2. cbn [bind].
  unfold mode_index_tuples. rewrite rev_gnitb_rev. apply mapM_Ok.
  intros idx Hidx. apply enumF_in in Hidx. destruct (selects_exists _ _ Hidx) as (p & Hp).
  destruct (zipM_flags _ _ _ Hp) as [E1 E2]. rewrite E1. cbn [bind]. rewrite E2. cbn [bind].
  now rewrite (selects_parts _ _ _ Hp).
Qed.
Lemma tp_ids_length lists : length (tp_ids lists) = prod_nat (map (@length _) lists).
Proof. unfold tp_ids. now rewrite map_length, enumF_length. Qed.

(** The entry a factor contributes to a product's mode id. *)
Definition id_entry (l : list mode_id) (m : mode_id) : mode_id :=
  entry_of (forallb is_singleton_with_int l) m.
Fixpoint id_entries (lists : list (list mode_id)) (p : list mode_id) : list mode_id :=
  match lists, p with
  | l :: lists', m :: p' => id_entry l m :: id_entries lists' p'
  | _, _ => []
  end.
Lemma id_entries_eq lists p :
  map (fun q => entry_of (fst q) (snd q)) (combine (map (forallb is_singleton_with_int) lists) p)
  = id_entries lists p.
Proof. revert p; induction lists as [|l lists IH]; intros [|m p]; simpl; auto. f_equal. apply IH. Qed.

Lemma tp_ids_nth lists idx p : selects lists idx p ->
  nth_error (tp_ids lists) (ravelF (map (@length _) lists) idx) = Some (MTuple (id_entries lists p)).
Proof.
  intros Hp. pose proof (selects_valid _ _ _ Hp) as Hv.
  unfold tp_ids. rewrite nth_error_map, enumF_nth by (now apply ravelF_lt).
  rewrite unravelF_ravelF by auto. simpl. rewrite (selects_parts _ _ _ Hp). now rewrite id_entries_eq.
Qed.

Lemma id_entry_inj l m m' : In m l -> In m' l -> id_entry l m = id_entry l m' -> m = m'.
Proof.
  unfold id_entry, entry_of. destruct (forallb is_singleton_with_int l) eqn:E; auto.
  rewrite forallb_forall in E. intros H H'. specialize (E m H) as E1. specialize (E m' H') as E2.
  destruct m as [|[|[k|] [|]]]; simpl in E1; try discriminate.
  destruct m' as [|[|[k'|] [|]]]; simpl in E2; try discriminate. simpl. congruence.
Qed.
Lemma id_entries_inj lists p q : Forall2 (fun x l => In x l) p lists -> Forall2 (fun x l => In x l) q lists ->
  id_entries lists p = id_entries lists q -> p = q.
Proof.
  intros Hp; revert q; induction Hp as [|x l p lists Hx Hp IH]; intros q Hq; inversion Hq; subst; auto.
  cbn [id_entries]. intros E. injection E as E1 E2. f_equal; [eapply id_entry_inj; eauto|auto].
Qed.

Lemma tp_ids_NoDup lists : Forall (@NoDup _) lists -> NoDup (tp_ids lists).
Proof.
  intros Hnd. apply NoDup_nth_error. rewrite tp_ids_length. intros i j Hi E.
  set (ns := map (@length _) lists) in *.
  assert (Hj : j < prod_nat ns).
  { destruct (Nat.lt_ge_cases j (prod_nat ns)); auto.
    rewrite (proj2 (nth_error_None _ j)) in E by (rewrite tp_ids_length; fold ns; lia).
    apply nth_error_None in E. rewrite tp_ids_length in E. fold ns in E. lia. }
  pose proof (unravelF_valid ns i Hi) as Vi. pose proof (unravelF_valid ns j Hj) as Vj.
  destruct (selects_exists _ _ Vi) as (p & Hp). destruct (selects_exists _ _ Vj) as (q & Hq).
  pose proof (tp_ids_nth _ _ _ Hp) as Ep. pose proof (tp_ids_nth _ _ _ Hq) as Eq. fold ns in Ep, Eq.
  rewrite ravelF_unravelF in Ep, Eq by auto. rewrite Ep, Eq in E. injection E as E.
  apply id_entries_inj in E; [|eapply selects_In; eauto..]. subst q.
  assert (unravelF ns i = unravelF ns j) as E' by (eapply selects_inj; eauto).
  rewrite <- (ravelF_unravelF ns i Hi), <- (ravelF_unravelF ns j Hj). congruence.
Qed.

(** Gradients of a product. *)
Lemma wandering_lengths k : Forall (fun l => length l = k) (wandering_element k).
Proof.
  unfold wandering_element. apply Forall_forall. intros l Hl.
  apply in_map_iff in Hl as (i & <- & Hi). apply in_seq in Hi. rewrite !app_length, !repeat_length. simpl. lia.
Qed.

Lemma zipM_exists {A B C} (f : A -> B -> res C) xs ys :
  Forall2 (fun x y => exists z, f x y = Ok z) xs ys -> exists zs, zipM f xs ys = Ok zs.
Proof.
  induction 1 as [|x y xs ys (z & Hz) _ (zs & IH)]; simpl; [eauto|]. rewrite Hz, IH. simpl. eauto.
Qed.
Lemma mapM_exists {A B} (f : A -> res B) xs :
  Forall (fun x => exists y, f x = Ok y) xs -> exists ys, mapM f xs = Ok ys.
Proof.
  induction 1 as [|x xs (y & Hy) _ (ys & IH)]; simpl; [eauto|]. rewrite Hy, IH. simpl. eauto.
Qed.

Lemma gradients_tp_length {T} (o : vops T) bs dims fss gss :
  mapM (functions o) bs = Ok fss -> mapM (gradients o) bs = Ok gss ->
  Forall2 (fun fs gs => length fs = length gs) fss gss ->
  exists gs, gradients o (TPBasis bs dims) = Ok gs /\ length gs = prod_nat (map (@length _) fss).
Proof.
  intros H1 H2 HL. cbn [gradients]. rewrite H1. cbn [bind]. rewrite H2. cbn [bind].
  match goal with |- exists gs, mapM ?f ?xs = Ok gs /\ _ =>
    assert (E : exists gs, mapM f xs = Ok gs) end.
  { apply mapM_exists. apply Forall_forall. intros mid Hmid.
    unfold mode_index_tuples in Hmid. rewrite rev_gnitb_rev in Hmid. apply enumF_in in Hmid.
    match goal with |- exists y, bind (mapM ?f ?xs) _ = Ok y =>
      assert (E : exists gs, mapM f xs = Ok gs) end.
    { apply mapM_exists. pose proof (wandering_lengths (length bs)) as HW.
      eapply Forall_impl; [|exact HW]. intros ind Hind. cbn beta.
      apply zipM_exists.
      assert (Hlen : length ind = length fss) by (apply mapM_length in H1; cbn beta in Hind; unfold bfun in *; lia).
      clear -HL Hmid Hlen. revert ind mid Hlen Hmid.
      induction HL as [|fs gs fss gss E HL IH]; intros ind mid Hlen Hmid.
      - inversion Hmid; subst. destruct ind; [constructor|discriminate].
      - destruct ind as [|d ind]; [discriminate|]. inversion Hmid as [|i ? mid' ? Hi Hmid']; subst.
        simpl. constructor; [|apply IH; auto]. simpl.
        destruct d.
        + unfold getitem. destruct (nth_error fs i) eqn:N; [simpl; eauto|]. apply nth_error_None in N. lia.
        + unfold getitem. destruct (nth_error gs i) eqn:N; [simpl; eauto|]. apply nth_error_None in N. lia. }
    destruct E as (ys & ->). simpl. eauto. }
  destruct E as (gs & E). exists gs. split; [exact E|].
  apply mapM_length in E. rewrite E. unfold mode_index_tuples. rewrite rev_gnitb_rev. apply enumF_length.
Qed.

(** ** Invariant of every basis whose functions exist. *)
Definition basis_count {T} (o : vops T) (b : basis) (n : nat) : Prop :=
  exists fs, functions o b = Ok fs /\ length fs = n.

Lemma onb_functions_length {T} (o : vops T) d n fs :
  simplex_onb_functions o d n = Ok fs -> length fs = length (gnitsam n d) /\ d <= 3.
Proof.
  destruct d as [|[|[|[|d]]]]; simpl; intros E; try discriminate; injection E as <-; split; try lia;
    unfold simplex_mode_tuples; rewrite ?map_length; try reflexivity.
Qed.
Lemma onb_functions_exist {T} (o : vops T) d n : d <= 3 ->
  exists fs, simplex_onb_functions o d n = Ok fs /\ length fs = length (gnitsam n d).
Proof.
  intros H. destruct d as [|[|[|[|d]]]]; simpl; try lia; eexists; (split; [reflexivity|]);
    unfold simplex_mode_tuples; rewrite ?map_length; reflexivity.
Qed.
Lemma onb_gradients_exist {T} (o : vops T) d n : 1 <= d <= 3 ->
  exists fs, simplex_onb_gradients o d n = Ok fs /\ length fs = length (gnitsam n d).
Proof.
  intros H. destruct d as [|[|[|[|d]]]]; simpl; try lia; eexists; (split; [reflexivity|]);
    unfold simplex_mode_tuples; rewrite ?map_length; reflexivity.
Qed.

Lemma mid_of_tuple_inj s t : mid_of_tuple s = mid_of_tuple t -> s = t.
Proof.
  unfold mid_of_tuple. intros E. injection E as E. revert t E; induction s; destruct t; simpl; intros E;
    try discriminate; auto. injection E as -> E. f_equal; auto.
Qed.
Lemma simplex_ids_NoDup d n : NoDup (map mid_of_tuple (simplex_mode_tuples d n)).
Proof.
  apply FinFun.Injective_map_NoDup; [intros s t; apply mid_of_tuple_inj|apply gnitsam_NoDup].
Qed.

(** The simplex orthonormal bases occurring in a basis have dimension at most 3
    (resp. between 1 and 3). *)
Inductive onb_dims (lo hi : nat) : basis -> Prop :=
| od_onb d n : lo <= d <= hi -> onb_dims lo hi (SimplexONB d n)
| od_mono d n : onb_dims lo hi (SimplexMonomial d n)
| od_tp bs ds : Forall (onb_dims lo hi) bs -> onb_dims lo hi (TPBasis bs ds).

(** Number of functions of a basis, computed from its structure. *)
Fixpoint basis_size (b : basis) : nat :=
  match b with
  | SimplexONB d n | SimplexMonomial d n => comb (n + d) d
  | TPBasis bs _ => product_of (map basis_size bs)
  end.

Lemma functions_size {T} (o : vops T) b : onb_dims 0 3 b ->
  exists fs, functions o b = Ok fs /\ length fs = basis_size b.
Proof.
  induction b as [d n|d n|bs ds IH] using basis_ind'; intros H; inversion H; subst.
  - destruct (onb_functions_exist o d n) as (fs & E & L); [lia|]. exists fs. split; [exact E|].
    rewrite L. apply gnitsam_length.
  - eexists. split; [reflexivity|]. rewrite map_length. apply gnitsam_length.
  - assert (exists fss, Forall2 (fun b fs => functions o b = Ok fs) bs fss
              /\ map (@length _) fss = map basis_size bs) as (fss & F & L).
    { clear H. match goal with H : Forall (onb_dims 0 3) bs |- _ => rename H into Hb end.
      induction bs as [|b bs IHb]; [exists []; split; [constructor|reflexivity]|].
      inversion IH as [|? ? I1 I2]; subst. inversion Hb as [|? ? B1 B2]; subst.
      destruct (I1 B1) as (fs & E & Lf). destruct (IHb I2 B2) as (fss & F & L).
      exists (fs :: fss). split; [constructor; auto|]. simpl. congruence. }
    exists (tp_functions o ds fss). split; [apply functions_tp_eq; now apply mapM_Ok_Forall2|].
    rewrite tp_functions_length, L. reflexivity.
Qed.

Lemma gradients_size {T} (o : vops T) b : onb_dims 1 3 b ->
  exists gs, gradients o b = Ok gs /\ length gs = basis_size b.
Proof.
  induction b as [d n|d n|bs ds IH] using basis_ind'; intros H; inversion H; subst.
  - destruct (onb_gradients_exist o d n) as (fs & E & L); [lia|]. exists fs. split; [exact E|].
    rewrite L. apply gnitsam_length.
  - eexists. split; [reflexivity|]. rewrite map_length. apply gnitsam_length.
  - assert (Hw : forall b, onb_dims 1 3 b -> onb_dims 0 3 b).
    { clear. induction b as [| |bs ds IH] using basis_ind'; intros H; inversion H; subst; constructor.
      - lia.
      - match goal with H : Forall (onb_dims 1 3) bs |- _ => rename H into Hb end.
        rewrite Forall_forall in *. auto. }
    assert (exists fss gss, Forall2 (fun b fs => functions o b = Ok fs) bs fss
              /\ Forall2 (fun b fs => gradients o b = Ok fs) bs gss
              /\ Forall2 (fun fs gs => length fs = length gs) fss gss
              /\ map (@length _) fss = map basis_size bs) as (fss & gss & F & G & FG & L).
    { clear H. match goal with H : Forall (onb_dims 1 3) bs |- _ => rename H into Hb end.
      induction bs as [|b bs IHb]; [exists [], []; repeat split; constructor|].
      inversion IH as [|? ? I1 I2]; subst. inversion Hb as [|? ? B1 B2]; subst.
      destruct (I1 B1) as (gs & E & Lg). destruct (functions_size o b (Hw _ B1)) as (fs & Ef & Lf).
      destruct (IHb I2 B2) as (fss & gss & F & G & FG & L).
      exists (fs :: fss), (gs :: gss). repeat split; try (constructor; auto; congruence). simpl. congruence. }
    apply mapM_Ok_Forall2 in F. apply mapM_Ok_Forall2 in G.
    destruct (gradients_tp_length o bs ds fss gss F G FG) as (gs & E & Lg).
    exists gs. split; [exact E|]. rewrite Lg, L. reflexivity.
Qed.

Lemma nfunctions_size b : onb_dims 0 3 b -> nfunctions b = Ok (basis_size b).
Proof. intros H. unfold nfunctions. destruct (functions_size Rops b H) as (fs & -> & <-). reflexivity. Qed.

Lemma mode_ids_size b : onb_dims 0 3 b ->
  exists ids, mode_ids b = Ok ids /\ NoDup ids /\ length ids = basis_size b.
Proof.
  induction b as [d n|d n|bs ds IH] using basis_ind'; intros H; inversion H; subst.
  - eexists. split; [reflexivity|]. split; [apply simplex_ids_NoDup|]. rewrite map_length. apply gnitsam_length.
  - eexists. split; [reflexivity|]. split; [apply simplex_ids_NoDup|]. rewrite map_length. apply gnitsam_length.
  - match goal with H : Forall (onb_dims 0 3) bs |- _ => rename H into Hb end.
    assert (exists lists, Forall2 (fun b l => mode_ids b = Ok l) bs lists
              /\ Forall (@NoDup _) lists
              /\ map (@length _) lists = map basis_size bs) as (lists & F & N & L).
    { clear H. induction bs as [|b bs IHb]; [exists []; repeat split; constructor|].
      inversion IH as [|? ? I1 I2]; subst. inversion Hb as [|? ? B1 B2]; subst.
      destruct (I1 B1) as (ids & E & Nd & Li). destruct (IHb I2 B2) as (lists & F & N & L).
      exists (ids :: lists). repeat split; try (constructor; auto; fail). simpl. congruence. }
    exists (tp_ids lists). split; [|split; [now apply tp_ids_NoDup|]].
    + apply (mode_ids_tp_eq _ _ _ (map basis_size bs)); auto.
      * now apply mapM_Ok_Forall2.
      * apply mapM_Ok_Forall2. clear -Hb. induction Hb; constructor; auto using nfunctions_size.
    + rewrite tp_ids_length, L. reflexivity.
Qed.

(** ** Bases built from spaces. *)
(** [space] and [shape] fit together: same tree of factors with equal dimensions. *)
Inductive fits : fspace -> shape -> Prop :=
| fits_simplex d n : fits (PN d n) (Simplex d)
| fits_tp c c' bs shs : Forall2 fits bs shs ->
    fits (TPSpace c bs) (TPShape c' (total (map shape_dim shs)) shs).

Lemma fits_dim s sh : fits s sh -> spatial_dim s = shape_dim sh.
Proof.
  revert sh; induction s as [d n|c bs IH] using fspace_ind'; intros sh H; inversion H; subst; auto.
  simpl. unfold total, sum_nat. f_equal.
  match goal with H : Forall2 fits bs ?shs |- _ => clear -IH H; revert IH; induction H; intros IH; auto end.
  inversion IH; subst. simpl. f_equal; auto.
Qed.

Lemma onb_for_space s sh : fits s sh ->
  exists b, orthonormal_basis_for_space s sh = Ok b /\ basis_size b = space_dim s.
Proof.
  revert sh; induction s as [d n|c bs IH] using fspace_ind'; intros sh H; inversion H; subst.
  - eexists; split; reflexivity.
  - pose proof (fits_dim _ _ H) as Hd. cbn [orthonormal_basis_for_space].
    rewrite Hd. cbn [shape_dim]. rewrite Nat.eqb_refl. cbn [negb].
    assert (exists l, zipM (fun b s => orthonormal_basis_for_space b s) bs shs = Ok l
              /\ map basis_size l = map space_dim bs) as (l & -> & L).
    { match goal with H : Forall2 fits bs _ |- _ => rename H into F end.
      clear -IH F. induction F as [|b s bs shs Hbs F IHf]; [exists []; split; reflexivity|].
      inversion IH as [|? ? I1 I2]; subst. destruct (I1 _ Hbs) as (b' & E & Eb).
      destruct (IHf I2) as (l & El & Ll). exists (b' :: l). simpl. rewrite E. simpl. rewrite El. simpl.
      split; congruence. }
    eexists. split; [reflexivity|]. simpl. now rewrite L.
Qed.

Lemma mono_for_space s sh : fits s sh ->
  exists b, monomial_basis_for_space s sh = Ok b /\ basis_size b = space_dim s /\ onb_dims 1 3 b /\ onb_dims 0 3 b.
Proof.
  revert sh; induction s as [d n|c bs IH] using fspace_ind'; intros sh H; inversion H; subst.
  - eexists; split; [reflexivity|]. split; [reflexivity|]. split; constructor.
  - cbn [monomial_basis_for_space].
    assert (exists l, zipM (fun b s => monomial_basis_for_space b s) bs shs = Ok l
              /\ map basis_size l = map space_dim bs /\ Forall (onb_dims 1 3) l /\ Forall (onb_dims 0 3) l)
      as (l & -> & L & O1 & O2).
    { match goal with H : Forall2 fits bs _ |- _ => rename H into F end.
      clear -IH F. induction F as [|b s bs shs Hbs F IHf]; [exists []; repeat split; constructor|].
      inversion IH as [|? ? I1 I2]; subst. destruct (I1 _ Hbs) as (b' & E & Eb & B1 & B2).
      destruct (IHf I2) as (l & El & Ll & O1 & O2). exists (b' :: l). simpl. rewrite E. simpl. rewrite El. simpl.
      split; [reflexivity|]. split; [congruence|]. split; constructor; auto. }
    eexists. split; [reflexivity|]. split; [simpl; now rewrite L|]. split; constructor; auto.
Qed.

(** Dimensions of the PN factors of a space (at any depth). *)
Inductive pn_dims (lo hi : nat) : fspace -> Prop :=
| pd_pn d n : lo <= d <= hi -> pn_dims lo hi (PN d n)
| pd_tp c bs : Forall (pn_dims lo hi) bs -> pn_dims lo hi (TPSpace c bs).

Lemma onb_for_space_dims lo hi s sh b : pn_dims lo hi s ->
  orthonormal_basis_for_space s sh = Ok b -> onb_dims lo hi b.
Proof.
  revert sh b; induction s as [d n|c bs IH] using fspace_ind'; intros sh b Hp; inversion Hp; subst.
  - destruct sh; simpl; intros E; [|discriminate]. injection E as <-. now constructor.
  - destruct sh as [|c' sd shs]; cbn [orthonormal_basis_for_space]; [discriminate|].
    destruct (negb _); [discriminate|].
    destruct (zipM (fun b s => orthonormal_basis_for_space b s) bs shs) as [l|] eqn:E; [|discriminate].
    simpl. intros E'. injection E' as <-. constructor.
    match goal with H : Forall (pn_dims lo hi) bs |- _ => rename H into Hb end.
    clear Hp. revert shs l E. induction bs as [|b' bs IHb]; intros [|s shs] l E; simpl in E; try discriminate.
    + injection E as <-. constructor.
    + inversion IH as [|? ? I1 I2]; subst. inversion Hb as [|? ? B1 B2]; subst.
      destruct (orthonormal_basis_for_space b' s) eqn:E1; [|discriminate]. simpl in E.
      destruct (zipM (fun b s => orthonormal_basis_for_space b s) bs shs) eqn:E2; [|discriminate].
      simpl in E. injection E as <-. constructor; eauto.
Qed.

Lemma c06_onb s sh : fits s sh -> pn_dims 0 3 s ->
  exists b fs ids, orthonormal_basis_for_space s sh = Ok b
    /\ (forall (T : Type) (o : vops T), exists fs', functions o b = Ok fs' /\ length fs' = space_dim s)
    /\ functions Rops b = Ok fs /\ length fs = space_dim s
    /\ mode_ids b = Ok ids /\ NoDup ids /\ length ids = space_dim s
    /\ (pn_dims 1 3 s -> forall (T : Type) (o : vops T),
          exists gs, gradients o b = Ok gs /\ length gs = space_dim s).
Proof.
  intros Hf Hp. destruct (onb_for_space s sh Hf) as (b & Eb & Sb).
  pose proof (onb_for_space_dims _ _ _ _ _ Hp Eb) as Ob.
  destruct (functions_size Rops b Ob) as (fs & Ef & Lf).
  destruct (mode_ids_size b Ob) as (ids & Ei & Ni & Li).
  exists b, fs, ids. rewrite <- Sb. repeat split; auto.
  - intros T o. now apply functions_size.
  - intros Hp' T o. apply gradients_size. eapply onb_for_space_dims; eauto.
Qed.

Lemma c06_mono s sh : fits s sh ->
  exists b ids, monomial_basis_for_space s sh = Ok b
    /\ (forall (T : Type) (o : vops T), exists fs', functions o b = Ok fs' /\ length fs' = space_dim s)
    /\ (forall (T : Type) (o : vops T), exists gs, gradients o b = Ok gs /\ length gs = space_dim s)
    /\ mode_ids b = Ok ids /\ NoDup ids /\ length ids = space_dim s.
Proof.
  intros Hf. destruct (mono_for_space s sh Hf) as (b & Eb & Sb & O1 & O2).
  destruct (mode_ids_size b O2) as (ids & Ei & Ni & Li).
  exists b, ids. rewrite <- Sb. repeat split; auto.
  - intros T o. now apply functions_size.
  - intros T o. now apply gradients_size.
Qed.
