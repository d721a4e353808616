(** * Proofs about space constructors (C08). *)
From Coq Require Import List Arith Bool Lia.
From Verif Require Import Py PyToolsModel ModelShapes ModelSpaces
  EnumFacts SpecIndex ProofNodeTuples ProofShapes.
Import ListNotations.

(** Spaces that can be obtained through the public constructors. *)
Inductive built_space : fspace -> Prop :=
| built_pn d n : built_space (PN d n)
| built_tps bases s : Forall built_space bases -> mk_TensorProductSpace bases = Ok s -> built_space s
| built_qn d n : built_space (mk_QN d n).

(** The factors of a space as pairs (dimension, order). *)
Definition space_factors (s : fspace) : list fspace :=
  match s with
  | PN d n => [PN d n]
  | TPSpace _ bs => bs
  end.
Definition is_pn (s : fspace) : Prop := exists d n, s = PN d n.
Definition flat_space (s : fspace) : Prop := Forall is_pn (space_factors s).

Lemma built_space_ind' (P : fspace -> Prop) :
  (forall d n, P (PN d n)) ->
  (forall bases s, Forall P bases -> mk_TensorProductSpace bases = Ok s -> P s) ->
  (forall d n, P (mk_QN d n)) ->
  forall s, built_space s -> P s.
Proof.
  intros H1 H2 H3. fix IH 2. intros s [d n|bases s' Hb E|d n].
  - apply H1.
  - apply (H2 bases s'); auto. clear E. induction Hb; constructor; auto.
  - apply H3.
Qed.

Lemma space_flatten_factors bases : space_flatten bases = concat (map space_factors bases).
Proof. unfold space_flatten, concat_tuples. f_equal. apply map_ext. intros [|]; reflexivity. Qed.

(** What [TensorProductSpace(bases)] returns: a space with the concatenated
    factors. *)
Lemma mk_tps_factors bases s : mk_TensorProductSpace bases = Ok s ->
  space_factors s = concat (map space_factors bases).
Proof.
  rewrite <- space_flatten_factors.
  destruct bases as [|[d n|[|] bs] [|b' bs']]; simpl; intros E; try discriminate; injection E as <-; reflexivity.
Qed.

Lemma flat_concat bases : Forall flat_space bases -> Forall is_pn (concat (map space_factors bases)).
Proof. induction 1; simpl; [constructor|]. apply Forall_app; split; auto. Qed.

Lemma built_space_flat s : built_space s -> flat_space s.
Proof.
  induction 1 as [d n|bases s Hb E|d n] using built_space_ind'.
  - repeat constructor. now exists d, n.
  - unfold flat_space. rewrite (mk_tps_factors _ _ E). now apply flat_concat.
  - unfold mk_QN. destruct (d =? 1); [repeat constructor; now eexists _, _|].
    unfold flat_space, tps_init; simpl. rewrite space_flatten_factors. apply flat_concat.
    clear. induction d; simpl; constructor; auto. repeat constructor. now eexists _, _.
Qed.

Lemma spatial_dim_factors s : spatial_dim s = total (map spatial_dim (space_factors s)).
Proof. destruct s; simpl; unfold total; simpl; [lia|reflexivity]. Qed.
Lemma space_dim_factors s : space_dim s = product_of (map space_dim (space_factors s)).
Proof. destruct s; simpl; unfold product_of; simpl; [lia|reflexivity]. Qed.

Lemma c08_dims bases s : mk_TensorProductSpace bases = Ok s ->
  spatial_dim s = total (map spatial_dim bases) /\ space_dim s = product_of (map space_dim bases).
Proof.
  intros E. rewrite spatial_dim_factors, space_dim_factors, (mk_tps_factors _ _ E). clear E.
  induction bases as [|b bases [IH1 IH2]]; simpl; [split; reflexivity|].
  rewrite !map_app, total_app, product_app, IH1, IH2, <- spatial_dim_factors, <- space_dim_factors.
  split; reflexivity.
Qed.

Lemma c08_single s : (match s with TPSpace SQN _ => False | _ => True end) -> flat_space s ->
  mk_TensorProductSpace [s] = Ok s.
Proof.
  destruct s as [d n|[|] bs]; simpl; intros H Hf; try contradiction; auto.
  unfold tps_init. rewrite space_flatten_factors. simpl. now rewrite app_nil_r.
Qed.
Lemma c08_several bases : length bases <> 1 ->
  mk_TensorProductSpace bases = Ok (TPSpace STensorProduct (concat (map space_factors bases))).
Proof.
  intros H. rewrite <- space_flatten_factors.
  destruct bases as [|[d n|[|] bs] [|b' bs']]; simpl in *; try reflexivity; lia.
Qed.

Lemma comb_n1 n : comb n 1 = n.
Proof. induction n; simpl; auto. rewrite IHn. destruct n; simpl; lia. Qed.

Lemma qn_factors d n : space_factors (mk_QN d n) = repeat (PN 1 n) d.
Proof.
  unfold mk_QN. destruct (Nat.eqb_spec d 1) as [->|H]; [reflexivity|].
  simpl. rewrite space_flatten_factors. clear. induction d; simpl; congruence.
Qed.

Lemma c08_qn d n :
  spatial_dim (mk_QN d n) = d /\ space_dim (mk_QN d n) = (n + 1) ^ d
  /\ (1 <= d -> space_order (mk_QN d n) = Ok n).
Proof.
  rewrite spatial_dim_factors, space_dim_factors, qn_factors. split; [|split].
  - clear. induction d; unfold total in *; simpl; lia.
  - clear. induction d as [|d IH]; [reflexivity|].
    unfold product_of in *. cbn [repeat map fold_right]. rewrite IH.
    cbn [space_dim]. rewrite comb_n1. simpl. lia.
  - intros Hd. unfold mk_QN. destruct (Nat.eqb_spec d 1) as [->|H]; [reflexivity|].
    destruct d; [lia|]. reflexivity.
Qed.

(** [space_for_shape] on a flat product. *)
Definition pn_list (ds ns : list nat) : list fspace := map (fun p => PN (fst p) (snd p)) (combine ds ns).

Lemma zipM_pn ds ns : length ds = length ns ->
  zipM (fun b n => space_for_shape b (OInt n)) (map Simplex ds) ns = Ok (pn_list ds ns).
Proof.
  revert ns; induction ds as [|d ds IH]; intros [|n ns] H; simpl in *; try discriminate; auto.
  rewrite IH by lia. reflexivity.
Qed.

Lemma mk_tps_pn_list ds ns : exists r, mk_TensorProductSpace (pn_list ds ns) = Ok r
  /\ space_factors r = pn_list ds ns.
Proof.
  assert (E : exists r, mk_TensorProductSpace (pn_list ds ns) = Ok r).
  { unfold pn_list. destruct (combine ds ns) as [|? [|? ?]]; simpl; eauto. }
  destruct E as (r & E). exists r. split; auto. rewrite (mk_tps_factors _ _ E).
  unfold pn_list. induction (combine ds ns) as [|p l IH]; simpl; [reflexivity|]. f_equal. apply IH.
Qed.

Lemma spatial_pn_list ds ns : length ds = length ns -> map spatial_dim (pn_list ds ns) = ds.
Proof.
  revert ns; induction ds as [|d ds IH]; intros [|n ns] H; simpl in *; try discriminate; auto.
  f_equal. apply IH. lia.
Qed.

Lemma c08_space_for_shape s (order : order_arg) ns : built s ->
  (match order with
   | OInt n => ns = repeat n (length (factor_dims s))
   | OTuple l => ns = l /\ (exists c dim bs, s = TPShape c dim bs)
   end) ->
  (length ns = length (factor_dims s) ->
   exists r, space_for_shape s order = Ok r
     /\ spatial_dim r = shape_dim s
     /\ space_factors r = map (fun p => PN (fst p) (snd p)) (combine (factor_dims s) ns))
  /\ (length ns <> length (factor_dims s) -> space_for_shape s order = Err ValueError).
Proof.
  intros Hs Ho. pose proof (built_is_flat _ Hs) as [(d & ->)|(c & ds & -> & _)].
  - destruct order as [n|l].
    + subst ns. simpl. split; [|intros H; elim H; reflexivity].
      intros _. exists (PN d n). repeat split.
    + destruct Ho as (_ & c & dim & bs & E). discriminate.
  - rewrite factor_dims_flat in *.
    assert (Hmain : length ds = length ns -> exists r,
      (let* spaces := zipM (fun b n => space_for_shape b (OInt n)) (map Simplex ds) ns in
       mk_TensorProductSpace spaces) = Ok r
      /\ spatial_dim r = shape_dim (flat_product c ds) /\ space_factors r = pn_list ds ns).
    { intros Hl. rewrite zipM_pn by auto. cbn [bind].
      destruct (mk_tps_pn_list ds ns) as (r & E & F). exists r. split; [exact E|]. split; [|exact F].
      rewrite spatial_dim_factors, F, spatial_pn_list by auto. reflexivity. }
    destruct order as [n|l].
    + subst ns. split.
      * intros Hl. destruct (Hmain (eq_sym Hl)) as (r & E & D & F). exists r. split; auto.
        cbn [space_for_shape flat_product]. rewrite map_length. exact E.
      * intros H. rewrite repeat_length in H. lia.
    + destruct Ho as [-> _]. split.
      * intros Hl. destruct (Hmain (eq_sym Hl)) as (r & E & D & F). exists r. split; auto.
        cbn [space_for_shape flat_product]. rewrite map_length, Hl, Nat.eqb_refl. exact E.
      * intros H. cbn [space_for_shape flat_product]. rewrite map_length.
        destruct (Nat.eqb_spec (length l) (length ds)); [contradiction|reflexivity].
Qed.
