(** * Facts about modal_decay.py *)
From Coquelicot Require Import Coquelicot.
From Coq Require Import List Arith Bool ZArith Reals Lra Lia Sorted.
From Verif Require Import Py PyToolsModel RSum RField ModelLinAlg ProofLinAlg ModelNd ModelShapes ModelSpaces ModelModes ModelBasis ModelQuad
  ModelMatrices ModelModalDecay EnumFacts SpecIndex SpecPartial SpecSpan ProofNodeTuples ProofBasisIndex ProofMatrices.
Import ListNotations.
Local Open Scope nat_scope.

(** ** degree vectors *)
Definition maximum (l : list nat) : nat := fold_right Nat.max 0 l.
Lemma fold_max_maximum l a : fold_left Nat.max l a = Nat.max a (maximum l).
Proof.
  revert a. induction l as [|b l IH]; intros a; cbn [fold_left maximum fold_right]; [lia|].
  rewrite IH. fold (maximum l). lia.
Qed.
Lemma py_max_nat_ok l : l <> [] -> py_max_nat l = Ok (maximum l).
Proof. destruct l as [|a l]; [easy|]. intros _. cbn [py_max_nat]. now rewrite fold_max_maximum. Qed.
Lemma maximum_ge l x : In x l -> x <= maximum l.
Proof.
  induction l as [|a l IH]; [easy|]. intros [->|H]; cbn [maximum fold_right]; fold (maximum l); [lia|].
  specialize (IH H). lia.
Qed.
Lemma maximum_in l : l <> [] -> In (maximum l) l.
Proof.
  induction l as [|a l IH]; [easy|]. intros _. cbn [maximum fold_right]. fold (maximum l).
  destruct l as [|b l']; [left; cbn; lia|]. set (l := b :: l') in *.
  destruct (Nat.max_spec a (maximum l)) as [[_ ->]|[_ ->]]; [right; now apply IH|now left].
Qed.

(** Every product has at least one factor. *)
Inductive tp_nonempty : basis -> Prop :=
| tn_onb d n : tp_nonempty (SimplexONB d n)
| tn_mono d n : tp_nonempty (SimplexMonomial d n)
| tn_tp bs dims : bs <> [] -> Forall tp_nonempty bs -> tp_nonempty (TPBasis bs dims).

Lemma degree_vector_tp bs dims dvs counts : bs <> [] ->
  mapM degree_vector bs = Ok dvs -> mapM nfunctions bs = Ok counts -> counts = map (@length _) dvs ->
  degree_vector (TPBasis bs dims)
  = Ok (map (fun idx => maximum (match zipM (fun fs i => getitem fs i) dvs idx with Ok p => p | Err _ => [] end))
          (enumF (map (@length _) dvs))).
Proof.
  intros Hne H1 H2 ->. cbn [degree_vector]. rewrite H1. cbn [bind]. rewrite H2. cbn [bind].
  unfold mode_index_tuples. rewrite rev_gnitb_rev. apply mapM_Ok. intros idx Hidx. apply enumF_in in Hidx.
  destruct (selects_exists _ _ Hidx) as (p & Hp). rewrite (selects_parts _ _ _ Hp). cbn [bind].
  apply py_max_nat_ok. intros ->. inversion Hp; subst.
  apply mapM_length in H1. destruct bs; [easy|discriminate].
Qed.
Lemma degree_vector_size b : onb_dims 0 3 b -> tp_nonempty b ->
  exists dv, degree_vector b = Ok dv /\ length dv = basis_size b.
Proof.
  induction b as [d n|d n|bs ds IH] using basis_ind'; intros H Hn; inversion H; inversion Hn; subst.
  - eexists. split; [reflexivity|]. rewrite map_length. apply gnitsam_length.
  - eexists. split; [reflexivity|]. rewrite map_length. apply gnitsam_length.
  - match goal with H : Forall (onb_dims 0 3) bs |- _ => rename H into Hb end.
    match goal with H : Forall tp_nonempty bs |- _ => rename H into Ht end.
    assert (exists dvs, mapM degree_vector bs = Ok dvs /\ mapM nfunctions bs = Ok (map (@length _) dvs)
       /\ map (@length _) dvs = map basis_size bs) as (dvs & E1 & E2 & E3).
    { clear -IH Hb Ht. induction bs as [|b bs IHb]; [exists []; repeat split; reflexivity|].
      inversion IH; inversion Hb; inversion Ht; subst.
      destruct IHb as (dvs & A & B & C); try assumption.
      destruct H1 as (dv & D & E); try assumption.
      exists (dv :: dvs). cbn [mapM map]. rewrite D, A, (nfunctions_size b) by assumption. cbn [bind].
      rewrite B. cbn [bind]. rewrite E, C. repeat split; reflexivity. }
    eexists. split; [eapply degree_vector_tp; eauto|].
    rewrite map_length, enumF_length, E3. reflexivity.
Qed.
Lemma basis_size_pos b : 0 < basis_size b.
Proof.
  induction b as [d n|d n|bs ds IH] using basis_ind'; cbn [basis_size].
  - rewrite <- gnitsam_length. destruct (gnitsam n d) eqn:E; [|cbn; lia]. exfalso.
    assert (X : In (repeat 0 d) (gnitsam n d)).
    { apply gnitsam_in. split; [apply repeat_length|]. clear. unfold sum_nat. induction d; cbn; lia. }
    rewrite E in X. easy.
  - rewrite <- gnitsam_length. destruct (gnitsam n d) eqn:E; [|cbn; lia]. exfalso.
    assert (X : In (repeat 0 d) (gnitsam n d)).
    { apply gnitsam_in. split; [apply repeat_length|]. clear. unfold sum_nat. induction d; cbn; lia. }
    rewrite E in X. easy.
  - induction IH as [|b bs Hb _ IHs]; [cbn; lia|]. unfold product_of in *. cbn [map fold_right]. lia.
Qed.

(** ** the estimator *)
Lemma sorted_filter_seq f s n : StronglySorted lt (filter f (seq s n)).
Proof.
  revert s. induction n as [|n IH]; intros s; cbn [seq filter]; [constructor|].
  destruct (f s); [|apply IH]. constructor; [apply IH|]. apply Forall_forall. intros x Hx.
  apply filter_In in Hx. destruct Hx as [Hx _]. apply in_seq in Hx. lia.
Qed.
Local Open Scope R_scope.
Lemma inv_coeffs fs nodes A X c : vandermonde fs nodes = Ok A -> np_inv A = Ok X -> length fs = length nodes ->
  forall m, (m < length fs)%nat -> rsum (fun i => ent X m i * lin fs c (pt nodes i)) (length nodes) = c m.
Proof.
  intros EA EX HL m Hm. destruct (vandermonde_inv _ _ _ EA) as (RA & CA & HA & _).
  destruct (np_inv_ok EX) as (_ & _ & _ & _ & _ & H). rewrite RA in H.
  rewrite (rsum_ext _ (fun i => ent X m i * rsum (fun l => ent A i l * c l) (length fs))).
  2:{ intros i Hi. rewrite <- lin_V. f_equal. apply rsum_ext. intros l Hl. now rewrite HA. }
  rewrite (rsum_assoc (ent X) (ent A) c m (length nodes) (length fs)).
  rewrite (rsum_ext _ (fun l => delta m l * c l)); [now apply rsum_delta|].
  intros l Hl. rewrite H by lia. reflexivity.
Qed.

(** ** skyline *)
Lemma sky_from_length cur l : length (sky_from cur l) = length l.
Proof. revert cur. induction l; intros; cbn; auto. Qed.
Lemma sky_from_ge cur l i : (i < length l)%nat ->
  cur <= nth i (sky_from cur l) 0 /\ nth i l 0 <= nth i (sky_from cur l) 0.
Proof.
  revert cur i. induction l as [|a l IH]; intros cur i H; [cbn in H; lia|]. cbn [sky_from].
  destruct i as [|i]; cbn [nth].
  - split; [apply Rmax_l|apply Rmax_r].
  - destruct (IH (Rmax cur a) i) as [A B]; [cbn in H; lia|]. split; [|easy]. pose proof (Rmax_l cur a). lra.
Qed.
Lemma sky_from_mono cur l i j : (i <= j < length l)%nat -> nth i (sky_from cur l) 0 <= nth j (sky_from cur l) 0.
Proof.
  revert cur i j. induction l as [|a l IH]; intros cur i j H; [cbn in H; lia|]. cbn [sky_from].
  destruct j as [|j]; [replace i with 0%nat by lia; lra|].
  destruct i as [|i]; cbn [nth].
  - apply sky_from_ge. cbn in H. lia.
  - apply IH. cbn in H. lia.
Qed.
Lemma sky_from_least cur l (g : nat -> R) : (forall i, (i < length l)%nat -> cur <= g i) ->
  (forall i, (i < length l)%nat -> nth i l 0 <= g i) -> (forall i j, (i <= j < length l)%nat -> g i <= g j) ->
  forall i, (i < length l)%nat -> nth i (sky_from cur l) 0 <= g i.
Proof.
  revert cur g. induction l as [|a l IH]; intros cur g Hc Hl Hm i Hi; [cbn in Hi; lia|]. cbn [sky_from].
  destruct i as [|i]; cbn [nth].
  - apply Rmax_lub; [now apply Hc|]. now apply (Hl 0%nat).
  - cbn in Hi. apply (IH (Rmax cur a) (fun i => g (S i))); [| | |lia].
    + intros k Hk. apply Rmax_lub; [apply Hc; cbn; lia|].
      eapply Rle_trans; [apply (Hl 0%nat); cbn; lia|]. apply Hm. cbn; lia.
    + intros k Hk. apply (Hl (S k)). cbn; lia.
    + intros k k' Hk. apply Hm. cbn; lia.
Qed.
