(** * Proofs about shape and space constructors (C07, C08). *)
From Coq Require Import List Arith Bool Reals Lra Lia Permutation.
From Verif Require Import Py PyToolsModel ModelNd ModelShapes ModelSpaces ModelNodes
  EnumFacts SpecIndex ProofNodeTuples ProofTPNodes.
Import ListNotations.

(** Shapes that can be obtained through the public constructors. *)
Inductive built : shape -> Prop :=
| built_simplex d : built (Simplex d)
| built_tp bases s : Forall built bases -> mk_TensorProductShape bases = Ok s -> built s
| built_cube d s : mk_Hypercube d = Ok s -> built s.

(** What such a shape looks like: a simplex, or a flat product of simplices of
    which at most one is not a segment. *)
Definition flat_product (c : tpcls) (ds : list nat) : shape :=
  TPShape c (total ds) (map Simplex ds).
Definition at_most_one_nonsegment (ds : list nat) : Prop :=
  length ds <= length (filter (fun d => d =? 1) ds) + 1.

Lemma shape_flatten_flat ds : shape_flatten (map Simplex ds) = map Simplex ds.
Proof. unfold shape_flatten, concat_tuples. induction ds; simpl; congruence. Qed.

Lemma filter_map_simplex ds :
  length (filter (fun s => shape_dim s =? 1) (map Simplex ds)) = length (filter (fun d => d =? 1) ds).
Proof. induction ds as [|d ds IH]; simpl; auto. destruct (d =? 1); simpl; auto. Qed.

(** Factors of a shape as a list of simplex dimensions. *)
Definition factor_dims (s : shape) : list nat :=
  match s with
  | Simplex d => [d]
  | TPShape _ _ bs => map shape_dim bs
  end.
Definition is_flat (s : shape) : Prop :=
  (exists d, s = Simplex d) \/ (exists c ds, s = flat_product c ds /\ at_most_one_nonsegment ds).

Lemma flatten_flat bases : Forall is_flat bases ->
  shape_flatten bases = map Simplex (concat (map factor_dims bases)).
Proof.
  unfold shape_flatten, concat_tuples. induction 1 as [|s bases Hs _ IH]; simpl; [reflexivity|].
  rewrite map_app, IH. f_equal. destruct Hs as [(d & ->)|(c & ds & -> & _)]; simpl; auto.
  rewrite !map_map. simpl. reflexivity.
Qed.

Lemma tp_init_flat c bases : Forall is_flat bases ->
  let ds := concat (map factor_dims bases) in
  (at_most_one_nonsegment ds /\ tp_init c bases = Ok (flat_product c ds))
  \/ (~ at_most_one_nonsegment ds /\ tp_init c bases = Err NotImplementedE).
Proof.
  intros H ds. unfold tp_init. rewrite (flatten_flat _ H). fold ds.
  rewrite filter_map_simplex, map_length, map_map. cbn [shape_dim]. rewrite map_id.
  unfold at_most_one_nonsegment. destruct (Nat.ltb_spec (length (filter (fun d => d =? 1) ds)) (length ds - 1)).
  - right. split; [lia|reflexivity].
  - left. split; [lia|reflexivity].
Qed.

Lemma built_ind' (P : shape -> Prop) :
  (forall d, P (Simplex d)) ->
  (forall bases s, Forall P bases -> mk_TensorProductShape bases = Ok s -> P s) ->
  (forall d s, mk_Hypercube d = Ok s -> P s) ->
  forall s, built s -> P s.
Proof.
  intros H1 H2 H3. fix IH 2. intros s [d|bases s' Hb E|d s' E].
  - apply H1.
  - apply (H2 bases s'); auto. clear E. induction Hb; constructor; auto.
  - apply (H3 d s'); auto.
Qed.

Lemma concat_map_simplex_dims n : concat (map factor_dims (repeat (Simplex 1) n)) = repeat 1 n.
Proof. induction n; simpl; congruence. Qed.
Lemma repeat_simplex_flat n : Forall is_flat (repeat (Simplex 1) n).
Proof. induction n; simpl; constructor; auto. left; eauto. Qed.
Lemma amo_repeat n : at_most_one_nonsegment (repeat 1 n).
Proof. unfold at_most_one_nonsegment. induction n; simpl; lia. Qed.

Lemma mk_hypercube_eq d : mk_Hypercube d =
  Ok (if d =? 1 then Simplex 1 else flat_product CHypercube (repeat 1 d)).
Proof.
  unfold mk_Hypercube. destruct (d =? 1); [reflexivity|].
  destruct (tp_init_flat CHypercube _ (repeat_simplex_flat d)) as [[_ ->]|[Hn _]].
  - now rewrite concat_map_simplex_dims.
  - exfalso; apply Hn. rewrite concat_map_simplex_dims. apply amo_repeat.
Qed.

Lemma built_is_flat s : built s -> is_flat s.
Proof.
  induction 1 as [d|bases s Hb E|d s E] using built_ind'.
  - left; eauto.
  - assert (Hinit : forall c, tp_init c bases = Ok s -> is_flat s).
    { intros c E'. destruct (tp_init_flat c _ Hb) as [[Ha E2]|[_ E2]]; rewrite E2 in E'; [|discriminate].
      injection E' as <-. right. eauto. }
    destruct bases as [|b [|b' bs]]; [now apply (Hinit CTensorProduct)| |
      destruct b as [|[|]]; now apply (Hinit CTensorProduct)].
    destruct b as [d|[|] d bs]; simpl in E.
    + injection E as <-. left; eauto.
    + now apply (Hinit CTensorProduct).
    + discriminate.
  - rewrite mk_hypercube_eq in E. injection E as <-. destruct (d =? 1); [left; eauto|].
    right. exists CHypercube, (repeat 1 d). split; auto. apply amo_repeat.
Qed.

(** Dimension and vertex count of a flat shape in terms of its factors. *)
Lemma flat_dim s : is_flat s -> shape_dim s = total (factor_dims s).
Proof.
  intros [(d & ->)|(c & ds & -> & _)]; simpl.
  - unfold total; simpl; lia.
  - rewrite map_map; simpl. now rewrite map_id.
Qed.
Lemma flat_nvertices s : is_flat s -> nvertices s = product_of (map (fun d => d + 1) (factor_dims s)).
Proof.
  intros [(d & ->)|(c & ds & -> & _)]; simpl.
  - unfold product_of; simpl; lia.
  - rewrite !map_map. reflexivity.
Qed.
Lemma total_app l1 l2 : total (l1 ++ l2) = total l1 + total l2.
Proof. apply sum_nat_app. Qed.
Lemma total_concat ls : total (concat ls) = total (map total ls).
Proof. induction ls as [|l ls IH]; simpl; [reflexivity|]. rewrite total_app, IH. reflexivity. Qed.
Lemma product_app l1 l2 : product_of (l1 ++ l2) = product_of l1 * product_of l2.
Proof. apply prod_nat_app. Qed.

(** A successful TensorProductShape(bases): dims add, vertex counts multiply. *)
Lemma mk_tp_factors bases s : Forall built bases -> mk_TensorProductShape bases = Ok s ->
  factor_dims s = concat (map factor_dims bases).
Proof.
  intros Hb E. assert (Hf : Forall is_flat bases) by (eapply Forall_impl; [apply built_is_flat|auto]).
  assert (Hinit : forall c, tp_init c bases = Ok s -> factor_dims s = concat (map factor_dims bases)).
  { intros c E'. destruct (tp_init_flat c _ Hf) as [[Ha E2]|[_ E2]]; rewrite E2 in E'; [|discriminate].
    injection E' as <-. simpl. rewrite map_map; simpl. now rewrite map_id. }
  destruct bases as [|b [|b' bs]]; [now apply (Hinit CTensorProduct)| |
    destruct b as [|[|]]; now apply (Hinit CTensorProduct)].
  destruct b as [d|[|] d bs]; simpl in E; [|now apply (Hinit CTensorProduct)|discriminate].
  injection E as <-. reflexivity.
Qed.

Lemma c07_dims bases s : Forall built bases -> mk_TensorProductShape bases = Ok s ->
  built s
  /\ shape_dim s = total (map shape_dim bases)
  /\ nvertices s = product_of (map nvertices bases).
Proof.
  intros Hb E. assert (Hs : built s) by (eapply built_tp; eauto).
  split; [auto|].
  pose proof (mk_tp_factors _ _ Hb E) as Ef.
  pose proof (built_is_flat _ Hs) as Fs.
  rewrite (flat_dim _ Fs), (flat_nvertices _ Fs), Ef.
  assert (Hf : Forall is_flat bases) by (eapply Forall_impl; [apply built_is_flat|auto]).
  clear -Hf. induction Hf as [|b bases Hb _ [IH1 IH2]]; simpl; [split; reflexivity|].
  rewrite total_app, map_app, product_app, IH1, IH2, (flat_dim _ Hb), (flat_nvertices _ Hb).
  split; reflexivity.
Qed.

(** When does the constructor accept a list of (at least two, or zero) bases? *)
Lemma c07_accepts bases : Forall built bases -> length bases <> 1 ->
  let ds := concat (map factor_dims bases) in
  (at_most_one_nonsegment ds -> mk_TensorProductShape bases = Ok (flat_product CTensorProduct ds))
  /\ (~ at_most_one_nonsegment ds -> mk_TensorProductShape bases = Err NotImplementedE).
Proof.
  intros Hb Hl ds. assert (Hf : Forall is_flat bases) by (eapply Forall_impl; [apply built_is_flat|auto]).
  assert (E : mk_TensorProductShape bases = tp_init CTensorProduct bases).
  { destruct bases as [|b [|b' bs]]; simpl in Hl; try lia; try reflexivity. destruct b as [|[|]]; reflexivity. }
  rewrite E. destruct (tp_init_flat CTensorProduct _ Hf) as [[Ha ->]|[Ha ->]]; fold ds in Ha |- *; split; tauto.
Qed.

Lemma c07_single d : mk_TensorProductShape [Simplex d] = Ok (Simplex d).
Proof. reflexivity. Qed.
Lemma c07_single_tp dim bs : built (TPShape CTensorProduct dim bs) ->
  mk_TensorProductShape [TPShape CTensorProduct dim bs] = Ok (TPShape CTensorProduct dim bs).
Proof.
  intros H. pose proof (built_is_flat _ H) as [(d & E)|(c & ds & E & Ha)]; [discriminate|].
  injection E as <- -> ->.
  change (mk_TensorProductShape [flat_product CTensorProduct ds] = Ok (flat_product CTensorProduct ds)).
  change (mk_TensorProductShape [flat_product CTensorProduct ds])
    with (tp_init CTensorProduct [flat_product CTensorProduct ds]).
  assert (Hf : Forall is_flat [flat_product CTensorProduct ds]) by (constructor; [right; eauto|constructor]).
  destruct (tp_init_flat CTensorProduct _ Hf) as [[_ E2]|[Hn _]].
  - rewrite E2. simpl. rewrite app_nil_r, map_map; simpl. now rewrite map_id.
  - exfalso; apply Hn. simpl. rewrite app_nil_r, map_map; simpl. now rewrite map_id.
Qed.

(** ** Vertices *)
Lemma simplex_vertices_wf d : wf_pts (unit_vertices_for_simplex d).
Proof.
  apply Forall_forall. intros c Hc. simpl in Hc. apply in_map_iff in Hc as (j & <- & _).
  now rewrite map_length, seq_length.
Qed.
Lemma simplex_vertices_count d : length (pts_cols (unit_vertices_for_simplex d)) = d + 1.
Proof. simpl. now rewrite map_length, seq_length. Qed.

Definition pm1 (x : R) : Prop := x = 1%R \/ x = (-1)%R.

Lemma factor_dims_flat c ds : factor_dims (flat_product c ds) = ds.
Proof. simpl. rewrite map_map; simpl. apply map_id. Qed.

Lemma vertices_ok s : is_flat s ->
  exists p, unit_vertices_for_shape s = Ok p /\ wf_pts p /\ pts_dim p = shape_dim s
    /\ length (pts_cols p) = nvertices s
    /\ pts_cols p = tp_tuples (map (fun d => pts_cols (unit_vertices_for_simplex d)) (factor_dims s)).
Proof.
  intros Hs. pose proof (flat_dim s Hs) as Hdim. pose proof (flat_nvertices s Hs) as Hnv.
  destruct Hs as [(d & ->)|(c & ds & -> & _)].
  - exists (unit_vertices_for_simplex d). split; [reflexivity|]. split; [apply simplex_vertices_wf|].
    split; [reflexivity|]. split; [apply simplex_vertices_count|].
    cbn [factor_dims map]. apply nth_error_ext.
    + rewrite tp_tuples_length. cbn [map]. unfold prod_nat. cbn [fold_right]. lia.
    + intros k Hk.
      destruct (nth_error (pts_cols (unit_vertices_for_simplex d)) k) as [v|] eqn:E.
      2:{ apply nth_error_None in E. lia. }
      assert (Hsel : selects [pts_cols (unit_vertices_for_simplex d)] [k] [v]).
      { constructor; [exact E|constructor]. }
      apply tp_tuples_nth in Hsel. cbn [map ravelF] in Hsel.
      rewrite Nat.mul_0_r, Nat.add_0_r in Hsel. rewrite Hsel. simpl. now rewrite app_nil_r.
  - assert (HM : mapM unit_vertices_for_shape (map Simplex ds) = Ok (map unit_vertices_for_simplex ds)).
    { apply mapM_Ok_Forall2. clear. induction ds; simpl; constructor; auto. }
    change (unit_vertices_for_shape (flat_product c ds))
      with (let* vs := mapM unit_vertices_for_shape (map Simplex ds) in tensor_product_pts vs).
    rewrite HM. cbn [bind].
    destruct (tensor_product_pts_ok (map unit_vertices_for_simplex ds)) as (p & Ep & Dp & C1 & C0 & Wp).
    { apply Forall_forall. intros q Hq. apply in_map_iff in Hq as (d & <- & _). apply simplex_vertices_wf. }
    rewrite map_map in Dp, C1, C0. cbn [unit_vertices_for_simplex pts_dim] in Dp, C1, C0.
    rewrite map_id in Dp, C1, C0.
    assert (Ecols : pts_cols p = tp_tuples (map (fun d => pts_cols (unit_vertices_for_simplex d))
                                                (factor_dims (flat_product c ds)))).
    { rewrite factor_dims_flat.
      destruct (Nat.eq_dec (sum_nat ds) 0) as [E0|E0].
      - rewrite (C0 E0). clear -E0.
        assert (Hds : Forall (fun d => d = 0) ds).
        { clear -E0. induction ds as [|d ds IH]; constructor; unfold sum_nat in E0; simpl in E0; [lia|].
          apply IH. unfold sum_nat; lia. }
        assert (Hs : forall ds, Forall (fun d => d = 0) ds ->
            selects (map (fun d => pts_cols (unit_vertices_for_simplex d)) ds) (repeat 0 (length ds)) (repeat [] (length ds))
            /\ prod_nat (map (@length (list R)) (map (fun d => pts_cols (unit_vertices_for_simplex d)) ds)) = 1).
        { clear. induction 1 as [|d ds -> _ [IH1 IH2]]; cbn [map length repeat]; split; try constructor; auto.
          unfold prod_nat in *; cbn [fold_right]. rewrite IH2. reflexivity. }
        destruct (Hs ds Hds) as [Hsel Hpr].
        apply nth_error_ext; [now rewrite tp_tuples_length, Hpr|].
        intros [|k] Hk; [|simpl in Hk; lia].
        apply tp_tuples_nth in Hsel.
        replace (ravelF _ (repeat 0 (length ds))) with 0 in Hsel.
        + rewrite Hsel. simpl. f_equal. clear. induction ds; simpl; auto.
        + clear. induction ds; cbn [map length repeat ravelF]; auto. rewrite <- IHds. lia.
      - rewrite C1; auto. now rewrite map_map. }
    exists p. split; [exact Ep|]. split; [exact Wp|]. split; [rewrite Dp; reflexivity|]. split; [|exact Ecols].
    rewrite Ecols, tp_tuples_length, Hnv. rewrite !map_map. unfold prod_nat, product_of.
    f_equal. simpl factor_dims. apply map_ext. intros d. simpl. now rewrite map_length, seq_length.
Qed.

Lemma simplex_vertices_nodup d : NoDup (pts_cols (unit_vertices_for_simplex d)).
Proof.
  cbn [unit_vertices_for_simplex pts_cols]. apply NoDup_nth_error.
  rewrite map_length, seq_length. intros i j Hi E.
  assert (Hj : j < d + 1).
  { destruct (Nat.lt_ge_cases j (d + 1)) as [|Hge]; auto.
    rewrite (proj2 (nth_error_None _ j)) in E by (rewrite map_length, seq_length; lia).
    rewrite nth_error_map, nth_error_seq in E by lia. discriminate. }
  rewrite !nth_error_map, !nth_error_seq in E by lia. simpl in E. injection E as E.
  assert (Hk : forall k, k < d -> (if i =? k + 1 then 1 else -1)%R = (if j =? k + 1 then 1 else -1)%R).
  { intros k Hk. assert (E' := f_equal (fun l => nth_error l k) E). cbn beta in E'.
    rewrite !nth_error_map, nth_error_seq in E' by lia. simpl in E'. now injection E'. }
  destruct (Nat.eq_dec i j) as [|Hne]; auto. exfalso.
  destruct i as [|i].
  - destruct j as [|j]; [lia|]. specialize (Hk j ltac:(lia)).
    replace (0 =? j + 1) with false in Hk by (symmetry; apply Nat.eqb_neq; lia).
    replace (S j =? j + 1) with true in Hk by (symmetry; apply Nat.eqb_eq; lia). lra.
  - specialize (Hk i ltac:(lia)).
    replace (S i =? i + 1) with true in Hk by (symmetry; apply Nat.eqb_eq; lia).
    replace (j =? i + 1) with false in Hk by (symmetry; apply Nat.eqb_neq; lia). lra.
Qed.

Lemma c07_vertices s : built s ->
  exists p, unit_vertices_for_shape s = Ok p
    /\ pts_dim p = shape_dim s
    /\ length (pts_cols p) = nvertices s
    /\ Forall (fun c => length c = shape_dim s) (pts_cols p)
    /\ NoDup (pts_cols p)
    /\ Forall (Forall pm1) (pts_cols p).
Proof.
  intros Hs. destruct (vertices_ok s (built_is_flat _ Hs)) as (p & Ep & Wp & Dp & Np & Cp).
  exists p. split; [auto|]. split; [auto|]. split; [auto|]. split.
  { unfold wf_pts in Wp. rewrite Dp in Wp. exact Wp. }
  split.
  - rewrite Cp. apply (tp_tuples_NoDup _ (factor_dims s)).
    + apply Forall_forall. intros l Hl. apply in_map_iff in Hl as (d & <- & _). apply simplex_vertices_nodup.
    + clear. induction (factor_dims s) as [|d ds IH]; cbn [map]; constructor; auto.
      apply (simplex_vertices_wf d).
  - rewrite Cp. apply Forall_forall. intros c Hc. apply tp_tuples_in in Hc as (parts & Hp & ->).
    apply Forall_forall. intros x Hx. apply in_concat in Hx as (part & Hpart & Hx).
    assert (exists d, In part (pts_cols (unit_vertices_for_simplex d))) as (d & Hd).
    { clear -Hp Hpart. revert parts Hp Hpart.
      induction (factor_dims s) as [|d ds IH]; intros parts Hp Hpart; cbn [map] in Hp; inversion Hp; subst.
      - destruct Hpart.
      - destruct Hpart as [<-|Hpart]; [exists d; assumption|eapply IH; eauto]. }
    simpl in Hd. apply in_map_iff in Hd as (j & <- & _). apply in_map_iff in Hx as (i & <- & _).
    destruct (j =? i + 1); [left|right]; reflexivity.
Qed.

(** ** Faces count *)
Lemma insert_perm {V} (x : nat * V) l : Permutation (x :: l) (insert_by_key x l).
Proof.
  induction l as [|y l IH]; simpl; [auto|].
  destruct (fst x <=? fst y); auto. eapply perm_trans; [apply perm_swap|]. auto.
Qed.
Lemma sort_perm {V} (l : list (nat * V)) : Permutation l (sort_by_key l).
Proof. induction l; simpl; auto. eapply perm_trans; [|apply insert_perm]. auto. Qed.
Inductive sorted_keys {V} : list (nat * V) -> Prop :=
| sk_nil : sorted_keys []
| sk_cons x l : Forall (fun y => fst x <= fst y) l -> sorted_keys l -> sorted_keys (x :: l).
Lemma insert_sorted {V} (x : nat * V) l : sorted_keys l -> sorted_keys (insert_by_key x l).
Proof.
  induction 1 as [|y l Hy H IH]; simpl; [repeat constructor|].
  destruct (Nat.leb_spec (fst x) (fst y)).
  - constructor; [|constructor; auto]. constructor; auto. eapply Forall_impl; [|exact Hy]. simpl; lia.
  - constructor; auto. apply (Permutation_Forall (insert_perm x l)). constructor; auto. lia.
Qed.
Lemma sort_sorted {V} (l : list (nat * V)) : sorted_keys (sort_by_key l).
Proof. induction l; simpl; [constructor|]. now apply insert_sorted. Qed.

Lemma sorted_last_max {V} (l : list (nat * V)) x : sorted_keys (l ++ [x]) -> Forall (fun y => fst y <= fst x) l.
Proof.
  induction l as [|y l IH]; simpl; intros H; [constructor|]. inversion H as [|? ? Hy Hs]; subst.
  constructor; auto. rewrite Forall_app in Hy. destruct Hy as [_ Hy]. now inversion Hy.
Qed.

Lemma filter_seg_perm l l' : Permutation l l' ->
  length (filter (fun d => d =? 1) l) = length (filter (fun d => d =? 1) l').
Proof.
  induction 1; simpl; auto; try congruence.
  - destruct (x =? 1); simpl; auto.
  - destruct (x =? 1), (y =? 1); simpl; auto.
Qed.
Lemma total_perm l l' : Permutation l l' -> total l = total l'.
Proof. unfold total; induction 1; simpl; lia. Qed.

Lemma filter_length_le {A} (f : A -> bool) l : length (filter f l) <= length l.
Proof. induction l as [|a l IH]; simpl; auto. destruct (f a); simpl; lia. Qed.

Lemma all_seg_length l : length (filter (fun d => d =? 1) l) = length l -> Forall (fun d => d = 1) l.
Proof.
  induction l as [|d l IH]; simpl; intros H; constructor.
  - destruct (Nat.eqb_spec d 1); auto. pose proof (filter_length_le (fun d => d =? 1) l). lia.
  - apply IH. destruct (d =? 1); simpl in H; [lia|].
    pose proof (filter_length_le (fun d => d =? 1) l). lia.
Qed.

Lemma c07_nfaces c ds : at_most_one_nonsegment ds -> Forall (fun d => 1 <= d) ds -> 2 <= length ds ->
  nfaces (flat_product c ds) = Ok (total (map (fun d => d + 1) ds)).
Proof.
  intros Ha Hpos Hlen. simpl. rewrite map_map. simpl shape_dim. cbn [nfaces].
  set (l := map (fun d => (d, Ok (d + 1))) ds).
  pose proof (sort_perm l) as Hp. pose proof (sort_sorted l) as Hs.
  assert (Hl : 2 <= length (sort_by_key l)).
  { rewrite <- (Permutation_length Hp). unfold l. now rewrite map_length. }
  assert (Hval : Forall (fun p => snd p = Ok (fst p + 1)) (sort_by_key l)).
  { apply (Permutation_Forall Hp). unfold l. apply Forall_forall. intros p Hpp.
    apply in_map_iff in Hpp as (d & <- & _). reflexivity. }
  destruct (rev (sort_by_key l)) as [|[dl rl] segs_rev] eqn:Er.
  { apply (f_equal (@length _)) in Er. rewrite rev_length in Er. simpl in Er. lia. }
  assert (El : sort_by_key l = rev segs_rev ++ [(dl, rl)]).
  { rewrite <- (rev_involutive (sort_by_key l)), Er. reflexivity. }
  rewrite El in *. clear Er. set (segs := rev segs_rev) in *. clearbody segs.
  rewrite Forall_app in Hval. destruct Hval as [Hvs Hvl]. inversion Hvl as [|? ? Hdl _]; subst.
  simpl in Hdl. rewrite Hdl. simpl.
  destruct segs as [|[d0 r0] segs]; [simpl in Hl; lia|].
  inversion Hvs as [|? ? Hr0 _]; subst. simpl in Hr0. rewrite Hr0. simpl.
  assert (Hpd : Permutation ds (map fst ((d0, r0) :: segs) ++ [dl])).
  { apply (Permutation_map fst) in Hp. rewrite map_app in Hp. cbn [map fst] in Hp.
    replace (map fst l) with ds in Hp by (unfold l; rewrite map_map; simpl; now rewrite map_id).
    exact Hp. }
  (* all but the last are segments *)
  assert (Hseg : Forall (fun d => d = 1) (map fst ((d0, r0) :: segs))).
  { pose proof (filter_seg_perm _ _ Hpd) as F. rewrite filter_app, app_length in F.
    pose proof (Permutation_length Hpd) as L. rewrite app_length in L.
    unfold at_most_one_nonsegment in Ha.
    pose proof (sorted_last_max _ _ Hs) as Hmax.
    destruct (Nat.eqb_spec dl 1) as [->|Hdl1].
    - (* everything is <= 1 and >= 1 *)
      apply Forall_forall. intros x Hx.
      assert (1 <= x) by (rewrite Forall_forall in Hpos; apply Hpos; eapply Permutation_in;
        [symmetry; exact Hpd|apply in_or_app; auto]).
      apply in_map_iff in Hx as (y & <- & Hy). rewrite Forall_forall in Hmax. specialize (Hmax y Hy).
      simpl in Hmax. lia.
    - apply all_seg_length. simpl (filter _ [dl]) in F. destruct (dl =? 1) eqn:E; [apply Nat.eqb_eq in E; lia|].
      simpl (length []) in F. simpl (length [dl]) in L. 
      pose proof (filter_length_le (fun d => d =? 1) (map fst ((d0, r0) :: segs))). lia. }
  f_equal.
  rewrite (total_perm (map (fun d => d + 1) ds) (map (fun d => d + 1) (map fst ((d0, r0) :: segs) ++ [dl])))
    by (now apply Permutation_map).
  rewrite map_app, total_app. simpl (map _ [dl]). unfold total at 2; cbn [fold_right].
  assert (Hd0 : d0 = 1) by (now inversion Hseg). subst d0.
  assert (Ht : forall l, Forall (fun d => d = 1) l -> total (map (fun d => d + 1) l) = 2 * length l).
  { clear. induction 1 as [|x l -> _ IH]; unfold total in *; simpl; lia. }
  rewrite Ht by auto. rewrite map_length. cbn [length]. lia.
Qed.

Lemma c07_cube_counts d s : mk_Hypercube d = Ok s ->
  shape_dim s = d /\ nvertices s = 2 ^ d /\ (1 <= d -> nfaces s = Ok (2 * d)).
Proof.
  rewrite mk_hypercube_eq. intros E; injection E as <-.
  destruct (Nat.eqb_spec d 1) as [->|Hd]; [repeat split; auto|].
  split; [|split].
  - simpl. clear. induction d; unfold total in *; simpl; lia.
  - simpl. rewrite map_map. clear. induction d as [|d IH]; [reflexivity|].
    unfold prod_nat in *. cbn [repeat map fold_right]. rewrite IH. simpl. lia.
  - intros Hd1. rewrite c07_nfaces.
    + f_equal. clear. induction d; unfold total in *; simpl in *; lia.
    + apply amo_repeat.
    + clear. induction d; simpl; constructor; auto.
    + rewrite repeat_length. lia.
Qed.
