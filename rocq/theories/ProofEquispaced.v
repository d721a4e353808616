(** * Equispaced and random nodes (C13, C14, and the node part of C05). *)
From Coq Require Import List Arith Bool Reals Lra Lia.
From Verif Require Import Py PyToolsModel ModelNd ModelShapes ModelSpaces ModelNodes
  EnumFacts SpecIndex SpecGeometry ProofNodeTuples ProofTPNodes ProofShapes ProofBasisIndex.
Import ListNotations.
Local Open Scope R_scope.

Lemma sumR_list_sum l : sumR l = list_sum l.
Proof. reflexivity. Qed.
Lemma list_sum_app l1 l2 : list_sum (l1 ++ l2) = list_sum l1 + list_sum l2.
Proof. induction l1; simpl; lra. Qed.
Lemma list_sum_const {A} (c : R) (l : list A) : list_sum (map (fun _ => c) l) = INR (length l) * c.
Proof. induction l as [|a l IH]; [simpl; lra|]. cbn [map list_sum fold_right length]. rewrite S_INR.
  change (fold_right Rplus 0 (map (fun _ => c) l)) with (list_sum (map (fun _ => c) l)). lra. Qed.
Lemma list_sum_cons x l : list_sum (x :: l) = x + list_sum l.
Proof. reflexivity. Qed.

Definition node_coord (n t : nat) : R := INR t / INR n * 2 - 1.

Lemma node_coord_half n t : (node_coord n t + 1) / 2 = INR t / INR n.
Proof. unfold node_coord. lra. Qed.

Lemma sum_node_half n ts : (0 < n)%nat ->
  list_sum (map (fun c => (c + 1) / 2) (map (node_coord n) ts)) = INR (total ts) / INR n.
Proof.
  intros Hn. assert (0 < INR n) by (now apply lt_0_INR).
  induction ts as [|t ts IH]; cbn [map].
  - simpl. lra.
  - rewrite list_sum_cons, IH, node_coord_half. change (total (t :: ts)) with (t + total ts)%nat.
    rewrite plus_INR. lra.
Qed.
Lemma sum_node n ts : (0 < n)%nat ->
  list_sum (map (node_coord n) ts) = 2 * (INR (total ts) / INR n) - INR (length ts).
Proof.
  intros Hn. induction ts as [|t ts IH]; cbn [map].
  - simpl. lra.
  - rewrite list_sum_cons, IH. change (total (t :: ts)) with (t + total ts)%nat.
    cbn [length]. rewrite plus_INR, S_INR. unfold node_coord. lra.
Qed.

Lemma bary_node n ts : (0 < n)%nat -> (total ts <= n)%nat ->
  barycentric (map (node_coord n) ts) = map (fun t => INR t / INR n) ((n - total ts)%nat :: ts).
Proof.
  intros Hn Ht. unfold barycentric. rewrite sum_node_half by auto. cbn [map].
  assert (0 < INR n) by (now apply lt_0_INR).
  f_equal.
  - rewrite minus_INR by auto. field. lra.
  - rewrite map_map. apply map_ext. intros t. apply node_coord_half.
Qed.

Lemma node_coord_inj n t t' : (0 < n)%nat -> node_coord n t = node_coord n t' -> t = t'.
Proof.
  intros Hn E. assert (0 < INR n) by (now apply lt_0_INR). apply INR_eq.
  unfold node_coord in E. assert (INR t / INR n = INR t' / INR n) as E' by lra.
  apply Rmult_eq_reg_r with (/ INR n); auto. apply Rgt_not_eq. apply Rinv_0_lt_compat. lra.
Qed.

Lemma node_in_simplex d n t : (0 < n)%nat -> length t = d -> (total t <= n)%nat ->
  in_simplex d (map (node_coord n) t).
Proof.
  intros Hn Hl Ht. assert (0 < INR n) by (now apply lt_0_INR). split; [now rewrite map_length|]. split.
  - apply Forall_forall. intros c Hc. apply in_map_iff in Hc as (k & <- & _). unfold node_coord.
    assert (0 <= INR k / INR n).
    { apply Rmult_le_pos; [apply pos_INR|]. left. now apply Rinv_0_lt_compat. } lra.
  - rewrite sum_node by auto. rewrite Hl.
    assert (INR (total t) / INR n <= 1).
    { apply Rmult_le_reg_r with (INR n); auto. unfold Rdiv. rewrite Rmult_assoc, Rinv_l by lra.
      rewrite Rmult_1_r, Rmult_1_l. now apply le_INR. } lra.
Qed.

(** ** Order 0: the centroid. *)
Lemma nth_map_seq {A} (f : nat -> A) x d i : (i < d)%nat -> nth i (map f (seq 0 d)) x = f i.
Proof.
  intros H. apply nth_error_nth. rewrite nth_error_map, nth_error_seq by auto. reflexivity.
Qed.

Lemma mean_simplex d :
  pts_cols (mean_column (unit_vertices_for_simplex d)) = [repeat (2 / (INR d + 1) - 1) d].
Proof.
  unfold mean_column. cbn [pts_dim pts_cols unit_vertices_for_simplex].
  rewrite map_length, seq_length.
  assert (Hs : forall i, (i < d)%nat ->
    sumR (map (fun c => nth i c 0) (map (fun j => map (fun i => if (j =? i + 1)%nat then 1 else -1) (seq 0 d)) (seq 0 (d + 1))))
    = 2 - (INR d + 1)).
  { intros i Hi. rewrite map_map.
    rewrite (map_ext_in _ (fun j => if (j =? i + 1)%nat then 1 else -1)).
    2:{ intros j _. now rewrite nth_map_seq. }
    assert (Hg : forall k s, (s <= i + 1 < s + k)%nat ->
       sumR (map (fun j => if (j =? i + 1)%nat then 1 else -1) (seq s k)) = 2 - INR k).
    { assert (Hout : forall k s, (i + 1 < s \/ s + k <= i + 1)%nat ->
         sumR (map (fun j => if (j =? i + 1)%nat then 1 else -1) (seq s k)) = - INR k).
      { induction k as [|k IH]; intros s Hk; [simpl; lra|].
        cbn [seq map]. change (sumR (?a :: ?l)) with (a + sumR l). rewrite IH by lia.
        destruct (Nat.eqb_spec s (i + 1)); [lia|]. rewrite S_INR. lra. }
      induction k as [|k IH]; intros s Hk; [lia|].
      cbn [seq map]. change (sumR (?a :: ?l)) with (a + sumR l).
      rewrite S_INR. destruct (Nat.eqb_spec s (i + 1)).
      - rewrite Hout by lia. lra.
      - rewrite IH by lia. lra. }
    rewrite Hg by lia. rewrite plus_INR. simpl. lra. }
  f_equal. rewrite (map_ext_in _ (fun _ => 2 / (INR d + 1) - 1)).
  - clear. generalize 0%nat as s. induction d as [|d IH]; intros s; [reflexivity|].
    cbn [seq map repeat]. f_equal.
    generalize (2 / (INR (S d) + 1) - 1). clear. intros r. generalize (S s) as q.
    induction d; intros q; simpl; auto. now rewrite IHd.
  - intros i Hi. apply in_seq in Hi. rewrite Hs by lia. rewrite plus_INR. simpl (INR 1).
    pose proof (pos_INR d). field. lra.
Qed.

Lemma repeat_sum r d : list_sum (repeat r d) = INR d * r.
Proof. induction d; [simpl; lra|]. rewrite S_INR. cbn [repeat]. rewrite list_sum_cons, IHd. lra. Qed.
Lemma map_repeat' {A B} (f : A -> B) x k : map f (repeat x k) = repeat (f x) k.
Proof. induction k; simpl; congruence. Qed.

Lemma centroid_bary d : barycentric (repeat (2 / (INR d + 1) - 1) d) = repeat (1 / (INR d + 1)) (d + 1).
Proof.
  pose proof (pos_INR d). unfold barycentric. rewrite map_repeat', repeat_sum.
  replace (d + 1)%nat with (S d) by lia. cbn [repeat]. f_equal; [field; lra|].
  f_equal. field. lra.
Qed.
Lemma centroid_in d : in_simplex d (repeat (2 / (INR d + 1) - 1) d).
Proof.
  pose proof (pos_INR d) as Hd. split; [apply repeat_length|]. split.
  - apply Forall_forall. intros c Hc. apply repeat_spec in Hc as ->.
    assert (0 < / (INR d + 1)) by (apply Rinv_0_lt_compat; lra). lra.
  - rewrite repeat_sum.
    assert (INR d / (INR d + 1) <= 1).
    { apply Rmult_le_reg_r with (INR d + 1); [lra|]. unfold Rdiv. rewrite Rmult_assoc, Rinv_l by lra. lra. }
    unfold Rdiv in *. lra.
Qed.

(** ** C13 on a simplex *)
Lemma equispaced_pn_eq d n : equispaced_nodes_for_space (PN d n) (Simplex d)
  = Ok (if (n =? 0)%nat then mean_column (unit_vertices_for_simplex d)
        else scale_tuples d n (gnitsam n d)).
Proof. cbn [equispaced_nodes_for_space]. rewrite Nat.eqb_refl. simpl. destruct (n =? 0)%nat; reflexivity. Qed.
Lemma equidistant_eq d n : equidistant_nodes d n None = equispaced_nodes_for_space (PN d n) (Simplex d).
Proof. rewrite equispaced_pn_eq. unfold equidistant_nodes. simpl. destruct (n =? 0)%nat; reflexivity. Qed.

Lemma NoDup_map_inj_in {A B} (f : A -> B) l :
  (forall x y, In x l -> In y l -> f x = f y -> x = y) -> NoDup l -> NoDup (map f l).
Proof.
  induction l as [|a l IH]; simpl; intros Hf Hnd; [constructor|]. inversion Hnd; subst. constructor.
  - intros Hin. apply in_map_iff in Hin as (b & E & Hb). assert (a = b) by (apply Hf; auto). subst. contradiction.
  - apply IH; auto.
Qed.
Lemma map_node_inj n s t : (0 < n)%nat -> map (node_coord n) s = map (node_coord n) t -> s = t.
Proof.
  intros Hn; revert t; induction s as [|a s IH]; intros [|b t]; simpl; intros E; try discriminate; auto.
  injection E as E1 E2. f_equal; [eapply node_coord_inj; eauto|auto].
Qed.

Lemma vertex_as_node d n j : (0 < n)%nat -> (j < d + 1)%nat ->
  exists t, In t (gnitsam n d)
    /\ map (node_coord n) t = map (fun i => if (j =? i + 1)%nat then 1 else -1) (seq 0 d).
Proof.
  intros Hn Hj. exists (map (fun i => if (j =? i + 1)%nat then n else 0%nat) (seq 0 d)). split.
  - apply gnitsam_in. split; [now rewrite map_length, seq_length|].
    assert (Hout : forall k s, (j < s + 1)%nat -> total (map (fun i => if (j =? i + 1)%nat then n else 0%nat) (seq s k)) = 0%nat).
    { induction k as [|k IH]; intros s Hs; [reflexivity|]. cbn [seq map].
      change (total (?a :: ?l)) with (a + total l)%nat. rewrite IH by lia.
      destruct (Nat.eqb_spec j (s + 1)); lia. }
    assert (Hg : forall k s, (total (map (fun i => if (j =? i + 1)%nat then n else 0%nat) (seq s k)) <= n)%nat).
    { induction k as [|k IH]; intros s; [simpl; unfold total; simpl; lia|]. cbn [seq map].
      change (total (?a :: ?l)) with (a + total l)%nat. destruct (Nat.eqb_spec j (s + 1)).
      - rewrite Hout by lia. lia.
      - specialize (IH (S s)). lia. }
    apply Hg.
  - rewrite map_map. apply map_ext. intros i. assert (0 < INR n) by (now apply lt_0_INR).
    unfold node_coord. destruct (j =? i + 1)%nat; [field; lra|]. change (INR 0) with 0. field. lra.
Qed.

Lemma c13_simplex d n :
  exists p tuples, equispaced_nodes_for_space (PN d n) (Simplex d) = Ok p
    /\ equidistant_nodes d n None = Ok p
    /\ pts_dim p = d
    /\ node_tuples_for_space (PN d n) = Ok tuples
    /\ length (pts_cols p) = space_dim (PN d n)
    /\ Forall (in_simplex d) (pts_cols p)
    /\ NoDup (pts_cols p)
    /\ ((1 <= n)%nat ->
        Forall2 (fun x t => barycentric x = map (fun k => INR k / INR n) ((n - total t)%nat :: t))
                (pts_cols p) tuples
        /\ (forall v, In v (pts_cols (unit_vertices_for_simplex d)) -> In v (pts_cols p)))
    /\ (n = 0%nat -> exists x, pts_cols p = [x] /\ barycentric x = repeat (1 / (INR d + 1)) (d + 1)).
Proof.
  rewrite equidistant_eq, equispaced_pn_eq. exists (if (n =? 0)%nat then mean_column (unit_vertices_for_simplex d) else scale_tuples d n (gnitsam n d)), (gnitsam n d).
  split; [reflexivity|]. split; [reflexivity|].
  destruct (Nat.eqb_spec n 0) as [->|Hn].
  - rewrite mean_simplex. split; [reflexivity|]. split; [reflexivity|]. split.
    { simpl. change (1%nat = comb d d). clear. assert (comb d d = 1)%nat as ->; auto.
      change (comb d d) with (comb (0 + d) d). rewrite <- gnitsam_length. clear. induction d; simpl; auto. rewrite app_nil_r, map_length. auto. }
    split; [constructor; [apply centroid_in|constructor]|]. split; [repeat constructor; simpl; tauto|].
    split; [lia|]. intros _. eexists; split; [reflexivity|]. apply centroid_bary.
  - assert (Hn0 : (0 < n)%nat) by lia. cbn [scale_tuples pts_dim pts_cols].
    change (fun t => INR t / INR n * 2 - 1) with (node_coord n).
    split; [reflexivity|]. split; [reflexivity|]. split; [rewrite map_length; apply gnitsam_length|].
    split; [|split; [|split]].
    + apply Forall_forall. intros x Hx. apply in_map_iff in Hx as (t & <- & Ht).
      apply gnitsam_in in Ht as [Hl Ht]. now apply node_in_simplex.
    + apply NoDup_map_inj_in; [|apply gnitsam_NoDup]. intros s t _ _. now apply map_node_inj.
    + intros _. split.
      * assert (Hall : Forall (fun t => (total t <= n)%nat) (gnitsam n d)).
        { apply Forall_forall. intros t Ht. now apply gnitsam_in in Ht. }
        induction Hall as [|t l Ht _ IH]; simpl; constructor; auto. now apply bary_node.
      * intros v Hv. apply in_map_iff in Hv as (j & <- & Hj). apply in_seq in Hj.
        destruct (vertex_as_node d n j Hn0 ltac:(lia)) as (t & Ht & E). rewrite <- E. now apply in_map.
    + intros; lia.
Qed.

(** User-supplied tuples for [equidistant_nodes]. *)
Lemma c13_user_tuples d n ts :
  (length ts <> space_dim (PN d n) -> equidistant_nodes d n (Some ts) = Err ValueError)
  /\ (length ts = space_dim (PN d n) -> (1 <= n)%nat ->
      exists p, equidistant_nodes d n (Some ts) = Ok p
        /\ pts_cols p = map (map (fun t => INR t / INR n * 2 - 1)) ts).
Proof.
  split; intros H; unfold equidistant_nodes.
  - destruct (Nat.eqb_spec (length ts) (space_dim (PN d n))); [contradiction|]. reflexivity.
  - intros Hn. rewrite H, Nat.eqb_refl. cbn [bind]. destruct (Nat.eqb_spec n 0); [lia|].
    eexists; split; reflexivity.
Qed.

(** ** Tensor products *)
Definition in_product (shs : list shape) (parts : list (list R)) : Prop :=
  Forall2 (fun x s => in_shape s x) parts shs.

Lemma in_shape_tp c d shs parts : in_product shs parts -> in_shape (TPShape c d shs) (concat parts).
Proof. induction 1 as [|x s parts shs Hx _ IH]; simpl; [reflexivity|]. exists x, (concat parts). auto. Qed.

(** All PN factors have order at least 1. *)
Inductive positive_orders : fspace -> Prop :=
| po_pn d n : (1 <= n)%nat -> positive_orders (PN d n)
| po_tp c bs : Forall positive_orders bs -> positive_orders (TPSpace c bs).

Definition equi_ok (s : fspace) (sh : shape) (p : points) : Prop :=
  equispaced_nodes_for_space s sh = Ok p
  /\ pts_dim p = spatial_dim s /\ wf_pts p
  /\ length (pts_cols p) = space_dim s
  /\ Forall (in_shape sh) (pts_cols p)
  /\ NoDup (pts_cols p)
  /\ (positive_orders s -> exists vs, unit_vertices_for_shape sh = Ok vs /\ wf_pts vs /\ pts_dim vs = spatial_dim s
        /\ Forall (fun v => In v (pts_cols p)) (pts_cols vs)).

(** With total dimension 0 there is exactly one (empty) column. *)
Lemma zero_dim_single {A} (l : list (list A)) : NoDup l -> Forall (fun c => length c = 0%nat) l -> (0 < length l)%nat -> l = [[]].
Proof.
  intros Hnd Hf Hl. destruct l as [|a [|b l]]; simpl in *; [lia| |].
  - inversion Hf; subst. destruct a; [reflexivity|discriminate].
  - inversion Hf as [|? ? Ha Hf']; subst. inversion Hf' as [|? ? Hb _]; subst.
    destruct a, b; try discriminate. inversion Hnd; subst. exfalso. apply H1. now left.
Qed.

Lemma space_dim_pos s : (0 < space_dim s)%nat.
Proof.
  induction s as [d n|c bs IH] using fspace_ind'.
  - cbn [space_dim]. rewrite <- gnitsam_length.
    assert (In (repeat 0%nat d) (gnitsam n d)).
    { apply gnitsam_in. split; [apply repeat_length|]. clear. induction d; unfold total in *; simpl; lia. }
    destruct (gnitsam n d); [contradiction|simpl; lia].
  - cbn [space_dim]. induction IH as [|b bs Hb _ IH]; unfold prod_nat in *; simpl; [lia|]. apply Nat.mul_pos_pos; auto.
Qed.

Lemma tp_tuples_all_empty {A} (tss : list (list (list A))) :
  Forall (fun ts => ts = [[]]) tss -> tp_tuples tss = [[]].
Proof.
  intros H. destruct (tp_tuples tss) as [|a l] eqn:E.
  - assert (L : length (tp_tuples tss) = 1%nat); [|rewrite E in L; discriminate].
    rewrite tp_tuples_length. clear E. induction H as [|? ? -> _ IH]; [reflexivity|]. unfold prod_nat in *; simpl. lia.
  - assert (L : length (tp_tuples tss) = 1%nat).
    { rewrite tp_tuples_length. clear E. induction H as [|? ? -> _ IH]; [reflexivity|]. unfold prod_nat in *; simpl. lia. }
    rewrite E in L. destruct l; [|discriminate]. f_equal.
    assert (Hin : In a (tp_tuples tss)) by (rewrite E; now left).
    apply tp_tuples_in in Hin as (p & Hp & ->). clear -H Hp. revert p Hp.
    induction H as [|? ? -> _ IH]; intros p Hp; inversion Hp; subst; [reflexivity|].
    match goal with H : In _ [[]] |- _ => destruct H as [<-|[]] end. simpl. auto.
Qed.

Lemma tensor_product_pts_cols sets :
  Forall wf_pts sets -> Forall (fun s => NoDup (pts_cols s)) sets -> Forall (fun s => (0 < length (pts_cols s))%nat) sets ->
  exists p, tensor_product_pts sets = Ok p /\ pts_dim p = sum_nat (map pts_dim sets)
    /\ pts_cols p = tp_tuples (map pts_cols sets) /\ wf_pts p.
Proof.
  intros Hw Hn Hl. destruct (tensor_product_pts_ok sets Hw) as (p & E & D & C1 & C0 & W).
  exists p. split; auto. split; auto. split; auto.
  destruct (Nat.eq_dec (sum_nat (map pts_dim sets)) 0) as [E0|E0]; [|auto].
  rewrite (C0 E0). symmetry. apply tp_tuples_all_empty.
  clear -Hw Hn Hl E0. induction sets as [|s sets IH]; simpl; constructor.
  - inversion Hw as [|? ? W1 W2]; inversion Hn; inversion Hl; subst.
    apply zero_dim_single; auto. unfold wf_pts in W1.
    unfold sum_nat in E0; simpl in E0. eapply Forall_impl; [|exact W1]. simpl; intros; lia.
  - inversion Hw; inversion Hn; inversion Hl; subst. apply IH; auto. unfold sum_nat in *; simpl in E0; lia.
Qed.

Lemma equi_all s sh : fits s sh -> exists p, equi_ok s sh p.
Proof.
  revert sh; induction s as [d n|c bs IH] using fspace_ind'; intros sh H; inversion H; subst.
  - destruct (c13_simplex d n) as (p & ts & E & _ & D & _ & L & I & N & V & _).
    exists p. unfold equi_ok. split; [exact E|]. split; [exact D|]. split.
    { unfold wf_pts. rewrite D. eapply Forall_impl; [|exact I]. now intros x [? _]. }
    split; [exact L|]. split; [exact I|]. split; [exact N|].
    intros Hp. assert (Hn : (1 <= n)%nat) by (now inversion Hp). destruct (V Hn) as [_ V'].
    exists (unit_vertices_for_simplex d). split; [reflexivity|]. split; [apply simplex_vertices_wf|]. split; [reflexivity|].
    apply Forall_forall. exact V'.
  - pose proof (fits_dim _ _ H) as Hd.
    match goal with H : Forall2 fits bs _ |- _ => rename H into F end.
    assert (exists ps, Forall2 (fun '(s, sh) p => equi_ok s sh p) (combine bs shs) ps) as (ps & Hps).
    { clear -IH F. induction F as [|b s bs shs Hbs F IHf]; [exists []; constructor|].
      inversion IH as [|? ? I1 I2]; subst. destruct (I1 _ Hbs) as (p & Hp). destruct (IHf I2) as (ps & Hps).
      exists (p :: ps). simpl. constructor; auto. }
    assert (Ez : zipM (fun b s => equispaced_nodes_for_space b s) bs shs = Ok ps).
    { clear -F Hps. revert ps Hps. induction F; intros ps Hps; inversion Hps; subst; [reflexivity|].
      simpl. match goal with H : equi_ok _ _ _ |- _ => destruct H as [-> _] end. simpl. rewrite (IHF _ ltac:(eassumption)). reflexivity. }
    assert (Hw : Forall wf_pts ps /\ Forall (fun s => NoDup (pts_cols s)) ps
       /\ Forall (fun s => (0 < length (pts_cols s))%nat) ps
       /\ map pts_dim ps = map spatial_dim bs
       /\ map (@length _) (map pts_cols ps) = map space_dim bs).
    { clear -F Hps. revert ps Hps. induction F; intros ps Hps; inversion Hps; subst; [repeat split; constructor|].
      match goal with H : equi_ok _ _ _ |- _ => destruct H as (_ & D & W & L & _ & N & _) end.
      destruct (IHF _ ltac:(eassumption)) as (W1 & N1 & L1 & D1 & C1).
      repeat split; try (constructor; auto); simpl; try congruence.
      rewrite L. apply space_dim_pos. }
    destruct Hw as (W & N & L & D & C).
    destruct (tensor_product_pts_cols ps W N L) as (p & E & Dp & Cp & Wp).
    exists p. unfold equi_ok. split; [|split; [|split; [|split; [|split; [|split]]]]].
    + cbn [equispaced_nodes_for_space]. rewrite Hd. cbn [shape_dim]. rewrite Nat.eqb_refl. cbn [negb].
      rewrite Ez. exact E.
    + rewrite Dp, D. reflexivity.
    + exact Wp.
    + rewrite Cp, tp_tuples_length, C. reflexivity.
    + rewrite Cp. apply Forall_forall. intros x Hx. apply tp_tuples_in in Hx as (parts & Hp & ->).
      apply in_shape_tp. clear -F Hps Hp. revert ps parts Hps Hp.
      induction F; intros ps parts Hps Hp; inversion Hps; subst; cbn [map] in Hp; inversion Hp; subst; constructor.
      * match goal with H : equi_ok _ _ _ |- _ => destruct H as (_ & _ & _ & _ & I & _) end.
        rewrite Forall_forall in I. auto.
      * eapply IHF; eauto.
    + rewrite Cp. apply (tp_tuples_NoDup _ (map pts_dim ps)).
      * clear -N. induction N; simpl; constructor; auto.
      * clear -W. induction W; simpl; constructor; auto.
    + intros Hpos. inversion Hpos; subst.
      match goal with H : Forall positive_orders bs |- _ => rename H into Po end.
      assert (exists vs, Forall2 (fun s v => unit_vertices_for_shape s = Ok v) shs vs
         /\ Forall wf_pts vs /\ map pts_dim vs = map spatial_dim bs
         /\ Forall2 (fun v q => Forall (fun x => In x (pts_cols q)) (pts_cols v)) vs ps) as (vs & Hv & Wv & Dv & Iv).
      { clear -F Hps Po. revert ps Hps. induction F; intros ps Hps; inversion Hps; subst; [exists []; repeat split; constructor|].
        inversion Po; subst.
        match goal with H : equi_ok _ _ _ |- _ => destruct H as (_ & _ & _ & _ & _ & _ & V) end.
        destruct (V ltac:(auto)) as (v & Ev & Wv & Dv & Iv).
        destruct (IHF ltac:(auto) _ ltac:(eassumption)) as (vs & E1 & W1 & D1 & I1).
        exists (v :: vs). repeat split; try (constructor; auto). simpl; congruence. }
      destruct (tensor_product_pts_ok vs Wv) as (pv & Epv & Dpv & C1 & C0 & Wpv).
      exists pv. split.
      { cbn [unit_vertices_for_shape]. rewrite (proj2 (mapM_Ok_Forall2 _ _ _) Hv). exact Epv. }
      split; [exact Wpv|]. split; [rewrite Dpv, Dv; reflexivity|].
      apply Forall_forall. intros x Hx. rewrite Cp.
      destruct (Nat.eq_dec (sum_nat (map pts_dim vs)) 0) as [E0|E0].
      * rewrite (C0 E0) in Hx. destruct Hx as [<-|[]].
        rewrite tp_tuples_all_empty; [now left|].
        assert (Ed : sum_nat (map pts_dim ps) = 0%nat) by congruence.
        clear -W N L Ed. induction ps as [|s ps IH]; simpl; constructor.
        -- inversion W as [|? ? W1 W2]; inversion N; inversion L; subst.
           apply zero_dim_single; auto. unfold wf_pts in W1.
           unfold sum_nat in Ed; simpl in Ed. eapply Forall_impl; [|exact W1]. simpl; intros; lia.
        -- inversion W; inversion N; inversion L; subst. apply IH; auto. unfold sum_nat in *; simpl in Ed; lia.
      * rewrite (C1 E0) in Hx. apply tp_tuples_in in Hx as (parts & Hp & ->).
        apply tp_tuples_in. exists parts. split; auto.
        clear -Iv Hp. revert parts Hp. induction Iv; intros parts Hp; inversion Hp; subst; constructor; auto.
        rewrite Forall_forall in *. auto.
Qed.

(** Positions of equispaced nodes in a product (C05). *)
Lemma equi_tp_nth c bs c' shs : fits (TPSpace c bs) (TPShape c' (total (map shape_dim shs)) shs) ->
  exists p ps, equispaced_nodes_for_space (TPSpace c bs) (TPShape c' (total (map shape_dim shs)) shs) = Ok p
    /\ Forall2 (fun '(s, sh) q => equispaced_nodes_for_space s sh = Ok q) (combine bs shs) ps
    /\ map (@length _) (map pts_cols ps) = map space_dim bs
    /\ forall digits, legal_digits (map space_dim bs) digits ->
         exists parts, selects (map pts_cols ps) digits parts
           /\ nth_error (pts_cols p) (mixed_radix (map space_dim bs) digits) = Some (concat parts).
Proof.
  intros H. pose proof (fits_dim _ _ H) as Hd. inversion H as [|? ? ? ? F]; subst.
  assert (exists ps, Forall2 (fun '(s, sh) p => equi_ok s sh p) (combine bs shs) ps) as (ps & Hps).
  { clear -F. induction F as [|b s bs shs Hbs F IHf]; [exists []; constructor|].
    destruct (equi_all _ _ Hbs) as (p & Hp). destruct IHf as (ps & Hps).
    exists (p :: ps). simpl. constructor; auto. }
  assert (Ez : zipM (fun b s => equispaced_nodes_for_space b s) bs shs = Ok ps).
  { clear -F Hps. revert ps Hps. induction F; intros ps Hps; inversion Hps; subst; [reflexivity|].
    simpl. match goal with H : equi_ok _ _ _ |- _ => destruct H as [-> _] end. simpl. rewrite (IHF _ ltac:(eassumption)). reflexivity. }
  assert (Hw : Forall wf_pts ps /\ Forall (fun s => NoDup (pts_cols s)) ps
     /\ Forall (fun s => (0 < length (pts_cols s))%nat) ps
     /\ map (@length _) (map pts_cols ps) = map space_dim bs
     /\ Forall2 (fun '(s, sh) q => equispaced_nodes_for_space s sh = Ok q) (combine bs shs) ps).
  { clear -F Hps. revert ps Hps. induction F; intros ps Hps; inversion Hps; subst; [repeat split; constructor|].
    match goal with H : equi_ok _ _ _ |- _ => destruct H as (E & D & W & L & _ & N & _) end.
    destruct (IHF _ ltac:(eassumption)) as (W1 & N1 & L1 & C1 & E1).
    repeat split; try (constructor; auto); simpl; try congruence.
    rewrite L. apply space_dim_pos. }
  destruct Hw as (W & N & L & C & Eq).
  destruct (tensor_product_pts_cols ps W N L) as (p & E & Dp & Cp & Wp).
  exists p, ps. split.
  { cbn [equispaced_nodes_for_space]. rewrite Hd. cbn [shape_dim]. rewrite Nat.eqb_refl. cbn [negb].
    rewrite Ez. exact E. }
  split; [exact Eq|]. split; [exact C|]. intros digits Hdig. rewrite <- C in Hdig.
  destruct (selects_exists _ _ Hdig) as (parts & Hp). exists parts. split; auto.
  rewrite Cp, <- C, mixed_radix_ravelF. now apply tp_tuples_nth.
Qed.

(** ** C14: random nodes *)
Section Random.
  Context {St : Type} (uniform : St -> nat -> nat -> list (list R) * St).
  (** The contract of the generator. *)
  Definition uniform_contract : Prop := forall st d n,
    length (fst (uniform st d n)) = n
    /\ Forall (fun c => length c = d /\ Forall (fun x => -1 <= x <= 1) c) (fst (uniform st d n)).

  (** [batches] are the arrays drawn in succession from state [st] with the
      requested sizes [sizes], ending in state [st']. *)
  Inductive draws (d : nat) : St -> list nat -> list (list (list R)) -> St -> Prop :=
  | draws_nil st : draws d st [] [] st
  | draws_cons st n sizes batches st' :
      draws d (snd (uniform st d n)) sizes batches st' ->
      draws d st (n :: sizes) (fst (uniform st d n) :: batches) st'.

  Definition strictly_inside (d : nat) (x : list R) : bool :=
    if Rlt_dec (list_sum x) (2 - INR d) then true else false.

  Lemma random_loop fuel d nnodes obtained st res st' :
    uniform_contract -> (length obtained <= nnodes)%nat ->
    random_simplex_loop uniform fuel d nnodes obtained st = Ok (res, st') ->
    length res = nnodes
    /\ exists sizes batches, draws d st sizes batches st'
       /\ res = obtained ++ filter (strictly_inside d) (concat batches).
  Proof.
    intros Hu. revert obtained st. induction fuel as [|fuel IH]; intros obtained st Hl; cbn [random_simplex_loop]; [discriminate|].
    destruct (uniform st d (nnodes - length obtained)) as [new st1] eqn:Eu.
    pose proof (Hu st d (nnodes - length obtained)%nat) as [Hn _]. rewrite Eu in Hn. cbn [fst] in Hn.
    assert (Hl' : (length (obtained ++ filter (accept_simplex d) new) <= nnodes)%nat).
    { rewrite app_length. pose proof (filter_length_le (accept_simplex d) new). lia. }
    destruct (Nat.eqb_spec (length (obtained ++ filter (accept_simplex d) new)) nnodes) as [E|E].
    - intros E'. injection E' as <- <-. split; auto. exists [(nnodes - length obtained)%nat], [new]. split.
      + pose proof (draws_cons d st (nnodes - length obtained) [] [] (snd (uniform st d (nnodes - length obtained)))
                      (draws_nil d _)) as Hdr. rewrite Eu in Hdr. exact Hdr.
      + simpl. now rewrite app_nil_r.
    - intros E'. destruct (IH _ _ Hl' E') as (L & sizes & batches & Hdr & ->).
      split; auto. exists ((nnodes - length obtained)%nat :: sizes), (new :: batches). split.
      + pose proof (draws_cons d st (nnodes - length obtained) sizes batches st') as Hc. rewrite Eu in Hc. auto.
      + simpl. rewrite filter_app, app_assoc. reflexivity.
  Qed.

  Lemma draws_contract d st sizes batches st' : uniform_contract -> draws d st sizes batches st' ->
    Forall (fun c => length c = d /\ Forall (fun x => -1 <= x <= 1) c) (concat batches).
  Proof.
    intros Hu. induction 1; simpl; [constructor|]. apply Forall_app. split; auto. apply Hu.
  Qed.

  Lemma c14_simplex fuel d nnodes st res st' : uniform_contract ->
    random_nodes_for_shape uniform fuel (Simplex d) nnodes st = Ok (res, st') ->
    length res = nnodes /\ Forall (in_simplex d) res
    /\ exists sizes batches, draws d st sizes batches st' /\ res = filter (strictly_inside d) (concat batches).
  Proof.
    intros Hu E. cbn [random_nodes_for_shape] in E.
    destruct (random_loop fuel d nnodes [] st res st' Hu (Nat.le_0_l _) E) as (L & sizes & batches & Hd & Er).
    split; auto. simpl in Er. split; [|eauto].
    subst res. pose proof (draws_contract _ _ _ _ _ Hu Hd) as Hc. apply Forall_forall. intros x Hx.
    apply filter_In in Hx as [Hx Hs]. rewrite Forall_forall in Hc. destruct (Hc x Hx) as [Hlen Hb].
    split; auto. split.
    - eapply Forall_impl; [|exact Hb]. simpl; intros; lra.
    - unfold strictly_inside in Hs. destruct (Rlt_dec (list_sum x) (2 - INR d)); [lra|discriminate].
  Qed.

  Lemma stack_cols_spec a b : length a = length b ->
    length (stack_cols a b) = length a
    /\ forall k x y, nth_error a k = Some x -> nth_error b k = Some y -> nth_error (stack_cols a b) k = Some (x ++ y).
  Proof.
    revert b; induction a as [|x a IH]; intros [|y b] H; simpl in *; try discriminate.
    - split; auto. intros [|k]; discriminate.
    - destruct (IH b ltac:(lia)) as [L N]. split; [lia|]. intros [|k] x' y'; simpl; [congruence|apply N].
  Qed.

  Lemma c14_all fuel sh nnodes : uniform_contract -> forall st res st',
    random_nodes_for_shape uniform fuel sh nnodes st = Ok (res, st') ->
    length res = nnodes /\ Forall (in_shape sh) res.
  Proof.
    intros Hu. induction sh as [d|c d bs IH] using shape_ind'; intros st res st' E.
    - destruct (c14_simplex _ _ _ _ _ _ Hu E) as (L & I & _). auto.
    - cbn [random_nodes_for_shape] in E.
      set (inall := fix in_all (bs : list shape) (x : list R) : Prop :=
         match bs with
         | [] => x = []
         | b :: bs' => exists p q, x = p ++ q /\ in_shape b p /\ in_all bs' q
         end).
      assert (Hgen : forall bs, Forall (fun sh => forall st res st',
            random_nodes_for_shape uniform fuel sh nnodes st = Ok (res, st') ->
            length res = nnodes /\ Forall (in_shape sh) res) bs ->
          forall acc st res st', length acc = nnodes ->
          (fix go (bs : list shape) (acc : list (list R)) (st : St) : Py.res (list (list R) * St) :=
             match bs with
             | [] => Ok (acc, st)
             | b :: bs' =>
                 let* r := random_nodes_for_shape uniform fuel b nnodes st in
                 go bs' (stack_cols acc (fst r)) (snd r)
             end) bs acc st = Ok (res, st') ->
          length res = nnodes /\
          forall k a x, nth_error acc k = Some a -> nth_error res k = Some x ->
            exists q, x = a ++ q /\ inall bs q).
      { clear. induction bs as [|b bs IHbs]; intros HF acc st res st' Hacc E.
        - injection E as <- <-. split; auto. intros k a x Ha Hx. exists []. rewrite app_nil_r. split; [congruence|reflexivity].
        - inversion HF as [|? ? H1 H2]; subst.
          destruct (random_nodes_for_shape uniform fuel b (length acc) st) as [[r str]|] eqn:Er; cbn [bind fst snd] in E; [|discriminate].
          destruct (H1 _ _ _ Er) as [Lr Ir].
          destruct (stack_cols_spec acc r ltac:(lia)) as [Ls Ns].
          destruct (IHbs H2 _ _ _ _ Ls E) as [L N]. split; auto.
          intros k a x Ha Hx.
          destruct (nth_error r k) as [y|] eqn:Ey.
          2:{ apply nth_error_None in Ey. assert (k < length acc)%nat by (apply nth_error_Some; congruence). lia. }
          destruct (N k (a ++ y) x (Ns _ _ _ Ha Ey) Hx) as (q & -> & Hq).
          exists (y ++ q). rewrite app_assoc. split; auto. simpl. exists y, q. repeat split; auto.
          rewrite Forall_forall in Ir. apply Ir. eapply nth_error_In; eauto. }
      destruct (Hgen bs IH (repeat [] nnodes) st res st' (repeat_length _ _) E) as [L N].
      split; auto. apply Forall_forall. intros x Hx. apply In_nth_error in Hx as (k & Hk).
      assert (Hr : nth_error (repeat (@nil R) nnodes) k = Some []).
      { assert (k < nnodes)%nat by (rewrite <- L; apply nth_error_Some; congruence).
        clear -H. revert k H; induction nnodes; intros [|k] H; simpl; try lia; auto. apply IHnnodes; lia. }
      destruct (N k [] x Hr Hk) as (q & -> & Hq). exact Hq.
  Qed.
End Random.
