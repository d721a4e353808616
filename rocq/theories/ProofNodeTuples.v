(** * Proofs about node tuples (C01, C02). *)
From Coq Require Import List Arith Bool Lia FinFun.
From Verif Require Import Py PyToolsModel ModelNd ModelShapes ModelSpaces ModelNodes
  EnumFacts SpecIndex.
Import ListNotations.

(** Induction over nested spaces and shapes. *)
Section Ind.
  Variable P : fspace -> Prop.
  Hypothesis HPN : forall d n, P (PN d n).
  Hypothesis HTP : forall c bs, Forall P bs -> P (TPSpace c bs).
  Fixpoint fspace_ind' (s : fspace) : P s :=
    match s with
    | PN d n => HPN d n
    | TPSpace c bs => HTP c bs ((fix go l : Forall P l :=
        match l with [] => Forall_nil _ | b :: l' => Forall_cons b (fspace_ind' b) (go l') end) bs)
    end.
End Ind.
Section IndS.
  Variable P : shape -> Prop.
  Hypothesis HS : forall d, P (Simplex d).
  Hypothesis HTP : forall c d bs, Forall P bs -> P (TPShape c d bs).
  Fixpoint shape_ind' (s : shape) : P s :=
    match s with
    | Simplex d => HS d
    | TPShape c d bs => HTP c d bs ((fix go l : Forall P l :=
        match l with [] => Forall_nil _ | b :: l' => Forall_cons b (shape_ind' b) (go l') end) bs)
    end.
End IndS.

Lemma mixed_radix_ravelF ns ds : mixed_radix ns ds = ravelF ns ds.
Proof. revert ds; induction ns as [|n ns IH]; destruct ds; simpl; auto. Qed.

Lemma selects_parts {A} (tss : list (list A)) idx parts :
  selects tss idx parts -> zipM (fun ts j => getitem ts j) tss idx = Ok parts.
Proof.
  induction 1; simpl; [reflexivity|]. unfold getitem at 1. rewrite H; simpl. now rewrite IHselects.
Qed.
Lemma selects_exists {A} (tss : list (list A)) idx :
  valid_idx idx (map (@length _) tss) -> exists parts, selects tss idx parts.
Proof.
  revert idx; induction tss as [|ts tss IH]; intros idx H; inversion H; subst; simpl.
  - exists []; constructor.
  - match goal with H : Forall2 lt _ _ |- _ => destruct (IH _ H) as (parts & F) end.
    destruct (nth_error ts x) as [p|] eqn:Ep.
    + exists (p :: parts). constructor; auto.
    + apply nth_error_None in Ep. lia.
Qed.
Lemma selects_fun {A} (tss : list (list A)) idx p q : selects tss idx p -> selects tss idx q -> p = q.
Proof.
  intros H; revert q; induction H; intros q Hq; inversion Hq; subst; auto.
  f_equal; [congruence|auto].
Qed.
Lemma selects_In {A} (tss : list (list A)) idx p : selects tss idx p -> Forall2 (fun x l => In x l) p tss.
Proof. induction 1; constructor; auto. eapply nth_error_In; eauto. Qed.
Lemma selects_valid {A} (tss : list (list A)) idx p : selects tss idx p -> valid_idx idx (map (@length _) tss).
Proof.
  induction 1; simpl; constructor; auto. apply nth_error_Some. congruence.
Qed.
Lemma In_selects {A} (tss : list (list A)) p :
  Forall2 (fun x l => In x l) p tss -> exists idx, selects tss idx p.
Proof.
  induction 1 as [|x l p tss Hx H IH]; [exists []; constructor|].
  destruct IH as (idx & IH). apply In_nth_error in Hx as (i & Hi).
  exists (i :: idx); constructor; auto.
Qed.
Lemma selects_inj {A} (tss : list (list A)) i j p :
  Forall (@NoDup A) tss -> selects tss i p -> selects tss j p -> i = j.
Proof.
  intros Hnd H; revert j; induction H; intros j Hj; inversion Hj; subst; auto.
  inversion Hnd; subst. f_equal; auto.
  eapply (proj1 (NoDup_nth_error l)); eauto.
  - apply nth_error_Some; congruence.
  - congruence.
Qed.

Lemma concat_inj_lengths {A} (ds : list nat) (p q : list (list A)) :
  Forall2 (fun x d => length x = d) p ds -> Forall2 (fun x d => length x = d) q ds ->
  concat p = concat q -> p = q.
Proof.
  intros Hp; revert q; induction Hp as [|x d p ds Hx Hp IH]; intros q Hq E;
    inversion Hq as [|x0 d0 q0 ds0 Hx0 Hq0]; subst; auto.
  simpl in E.
  assert (x = x0 /\ concat p = concat q0) as [-> E'].
  { clear -E Hx0. revert x0 Hx0 E; induction x as [|a x IHx]; destruct x0 as [|b x0]; simpl; try easy.
    intros Hl E; injection E as -> E. destruct (IHx x0 ltac:(lia) E) as [-> ->]; auto. }
  f_equal; auto.
Qed.

(** What the list of node tuples of a space should be. *)
Definition tuples_ok (s : fspace) (l : list (list nat)) : Prop :=
  node_tuples_for_space s = Ok l /\ length l = space_dim s /\ NoDup l
  /\ Forall (fun t => length t = spatial_dim s) l.

(** The list computed for a tensor product of spaces with the given lists. *)
Definition tp_tuples {A} (tss : list (list (list A))) : list (list A) :=
  map (fun idx => concat (match zipM (fun ts j => getitem ts j) tss idx with Ok p => p | Err _ => [] end))
      (enumF (map (@length _) tss)).

Lemma node_tuples_tp_eq c bases tss :
  mapM node_tuples_for_space bases = Ok tss ->
  node_tuples_for_space (TPSpace c bases) = Ok (tp_tuples tss).
Proof.
  intros H. simpl. rewrite H. simpl. rewrite rev_gnitb_maprev.
  unfold tp_tuples. apply mapM_Ok.
  intros idx Hidx. apply enumF_in in Hidx.
  destruct (selects_exists _ _ Hidx) as (p & Hp).
  rewrite (selects_parts _ _ _ Hp). reflexivity.
Qed.

Lemma tp_tuples_nth {A} (tss : list (list (list A))) idx p :
  selects tss idx p -> nth_error (tp_tuples tss) (ravelF (map (@length _) tss) idx) = Some (concat p).
Proof.
  intros Hp. pose proof (selects_valid _ _ _ Hp) as Hv.
  unfold tp_tuples. rewrite nth_error_map, enumF_nth by (now apply ravelF_lt).
  rewrite unravelF_ravelF by auto. simpl. now rewrite (selects_parts _ _ _ Hp).
Qed.
Lemma tp_tuples_length {A} (tss : list (list (list A))) : length (tp_tuples tss) = prod_nat (map (@length _) tss).
Proof. unfold tp_tuples. now rewrite map_length, enumF_length. Qed.
Lemma tp_tuples_in {A} (tss : list (list (list A))) t :
  In t (tp_tuples tss) <-> exists p, Forall2 (fun x l => In x l) p tss /\ t = concat p.
Proof.
  unfold tp_tuples; rewrite in_map_iff; split.
  - intros (idx & <- & Hi). apply enumF_in in Hi. destruct (selects_exists _ _ Hi) as (p & Hp).
    exists p. rewrite (selects_parts _ _ _ Hp). split; auto. eapply selects_In; eauto.
  - intros (p & Hp & ->). destruct (In_selects _ _ Hp) as (idx & Hidx).
    exists idx. rewrite (selects_parts _ _ _ Hidx). split; auto.
    apply enumF_in. eapply selects_valid; eauto.
Qed.
Lemma tp_tuples_NoDup {A} (tss : list (list (list A))) ds :
  Forall (@NoDup _) tss -> Forall2 (fun ts d => Forall (fun t => length t = d) ts) tss ds ->
  NoDup (tp_tuples tss).
Proof.
  intros Hnd Hd. unfold tp_tuples.
  apply NoDup_nth_error. rewrite map_length, enumF_length. intros i j Hi E.
  set (ns := map (@length _) tss) in *.
  assert (Hj : j < prod_nat ns).
  { destruct (Nat.lt_ge_cases j (prod_nat ns)) as [|Hge]; auto.
    rewrite (proj2 (nth_error_None _ j)) in E by (rewrite map_length, enumF_length; lia).
    rewrite nth_error_map, enumF_nth in E by lia. discriminate. }
  rewrite !nth_error_map, !enumF_nth in E by lia. simpl in E. injection E as E.
  pose proof (unravelF_valid ns i Hi) as Vi. pose proof (unravelF_valid ns j Hj) as Vj.
  destruct (selects_exists _ _ Vi) as (p & Hp). destruct (selects_exists _ _ Vj) as (q & Hq).
  rewrite (selects_parts _ _ _ Hp), (selects_parts _ _ _ Hq) in E.
  assert (Hlen : forall p, Forall2 (fun x l => In x l) p tss -> Forall2 (fun x d => length x = d) p ds).
  { clear -Hd. induction Hd as [|ts d tss ds Hts Hd IH]; intros p Hp; inversion Hp; subst; constructor; auto.
    rewrite Forall_forall in Hts. auto. }
  assert (p = q) as -> by
    (eapply concat_inj_lengths; [apply Hlen; eapply selects_In; eauto..|exact E]).
  assert (unravelF ns i = unravelF ns j) as E' by (eapply selects_inj; eauto).
  rewrite <- (ravelF_unravelF ns i Hi), <- (ravelF_unravelF ns j Hj). congruence.
Qed.

Lemma node_tuples_ok s : exists l, tuples_ok s l.
Proof.
  induction s as [d n|c bs IH] using fspace_ind'.
  - exists (gnitsam n d). repeat split.
    + apply gnitsam_length.
    + apply gnitsam_NoDup.
    + apply Forall_forall. intros t Ht. now apply gnitsam_in in Ht as [? _].
  - assert (exists tss, Forall2 tuples_ok bs tss) as (tss & Htss).
    { clear c. induction IH as [|b bs (l & Hl) _ (tss & IH)].
      - exists []; constructor.
      - exists (l :: tss); constructor; auto. }
    assert (HM : mapM node_tuples_for_space bs = Ok tss).
    { apply mapM_Ok_Forall2. clear IH. induction Htss as [|? ? ? ? [? ?] ?]; constructor; auto. }
    assert (Hlen : map (@length _) tss = map space_dim bs).
    { clear -Htss. induction Htss as [|? ? ? ? (?&?&?) ?]; simpl; congruence. }
    exists (tp_tuples tss). repeat split.
    + now apply node_tuples_tp_eq.
    + rewrite tp_tuples_length, Hlen. reflexivity.
    + apply (tp_tuples_NoDup tss (map spatial_dim bs)).
      * clear -Htss. induction Htss as [|? ? ? ? (?&?&?&?) ?]; constructor; auto.
      * clear -Htss. induction Htss as [|? ? ? ? (?&?&?&?) ?]; simpl; constructor; auto.
    + apply Forall_forall. intros t Ht. apply tp_tuples_in in Ht as (p & Hp & ->).
      simpl. clear -Htss Hp. revert p Hp. induction Htss as [|b ts bs tss (?&?&?&Hts) ? IH]; intros p Hp;
        inversion Hp; subst; [reflexivity|].
      simpl. rewrite app_length. unfold sum_nat; simpl. rewrite Forall_forall in Hts.
      rewrite Hts by auto. f_equal. now apply IH.
Qed.

(** ** Statements used by the property file. *)
Lemma c01_proof d n :
  exists l, node_tuples_for_space (PN d n) = Ok l
    /\ NoDup l
    /\ (forall t, In t l <-> length t = d /\ total t <= n)
    /\ length l = space_dim (PN d n)
    /\ length l * (fact d * fact n) = fact (n + d).
Proof.
  exists (gnitsam n d). split; [reflexivity|]. split; [apply gnitsam_NoDup|].
  split; [apply gnitsam_in|]. rewrite gnitsam_length. split; [reflexivity|].
  rewrite <- (comb_fact (n + d) d) by lia. now replace (n + d - d) with n by lia.
Qed.

Lemma c02_proof c bases :
  exists tss l,
    Forall2 (fun b ts => node_tuples_for_space b = Ok ts) bases tss
    /\ node_tuples_for_space (TPSpace c bases) = Ok l
    /\ length l = space_dim (TPSpace c bases)
    /\ length l = product_of (map (@length _) tss)
    /\ NoDup l
    /\ (forall t, In t l <-> exists parts, Forall2 (fun p ts => In p ts) parts tss /\ t = concat parts)
    /\ (forall digits, legal_digits (map (@length _) tss) digits ->
          exists parts, selects tss digits parts
            /\ nth_error l (mixed_radix (map (@length _) tss) digits) = Some (concat parts)).
Proof.
  destruct (node_tuples_ok (TPSpace c bases)) as (l & Hl & Hlen & Hnd & _).
  assert (exists tss, mapM node_tuples_for_space bases = Ok tss) as (tss & HM).
  { simpl in Hl. destruct (mapM node_tuples_for_space bases); [eauto|discriminate]. }
  exists tss, l. pose proof (node_tuples_tp_eq c bases tss HM) as E.
  rewrite Hl in E; injection E as ->.
  split; [now apply mapM_Ok_Forall2|]. split; [exact Hl|]. split; [exact Hlen|].
  split; [apply tp_tuples_length|]. split; [exact Hnd|]. split; [apply tp_tuples_in|].
  intros digits Hd. destruct (selects_exists _ _ Hd) as (p & Hp).
  exists p; split; auto. rewrite mixed_radix_ravelF. now apply tp_tuples_nth.
Qed.
