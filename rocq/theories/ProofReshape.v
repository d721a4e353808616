(** * Proofs about tensor-product reshaping (C04). *)
From Coq Require Import List Arith Bool ZArith Lia.
From Verif Require Import Py ModelNd ModelShapes ModelSpaces ModelReshape EnumFacts SpecIndex ProofNodeTuples.
Import ListNotations.

Lemma ravelF_app sh1 sh2 i1 i2 : length i1 = length sh1 ->
  ravelF (sh1 ++ sh2) (i1 ++ i2) = ravelF sh1 i1 + prod_nat sh1 * ravelF sh2 i2.
Proof.
  revert i1; induction sh1 as [|n sh1 IH]; destruct i1 as [|i i1]; simpl; intros H; try discriminate.
  { unfold prod_nat; cbn [fold_right]. lia. }
  rewrite IH by lia. change (prod_nat (n :: sh1)) with (n * prod_nat sh1). lia.
Qed.

Lemma valid_idx_app i1 i2 s1 s2 : valid_idx i1 s1 -> valid_idx i2 s2 -> valid_idx (i1 ++ i2) (s1 ++ s2).
Proof. apply Forall2_app. Qed.
Lemma valid_idx_app_inv idx s1 s2 : valid_idx idx (s1 ++ s2) ->
  exists i1 i2, idx = i1 ++ i2 /\ valid_idx i1 s1 /\ valid_idx i2 s2.
Proof. intros H. apply Forall2_app_inv_r in H as (i1 & i2 & H1 & H2 & ->). eauto 6. Qed.

(** The two ways to name the axis after [pre] in an array with [n] axes. *)
Definition names_axis (axis : Z) (pos n : nat) : Prop :=
  (axis = Z.of_nat pos \/ axis = Z.of_nat pos - Z.of_nat n)%Z.

Lemma normalize_axis_ok axis pos n : pos < n -> names_axis axis pos n ->
  normalize_axis axis (Z.of_nat n) = Ok pos.
Proof.
  intros Hlt [->| ->]; unfold normalize_axis.
  - destruct (Z.ltb_spec (Z.of_nat pos) 0); [lia|].
    destruct (Z.leb_spec 0 (Z.of_nat pos)); [|lia].
    destruct (Z.ltb_spec (Z.of_nat pos) (Z.of_nat n)); [|lia]. simpl. f_equal; lia.
  - destruct (Z.ltb_spec (Z.of_nat pos - Z.of_nat n) 0); [|lia].
    replace (Z.of_nat pos - Z.of_nat n + Z.of_nat n)%Z with (Z.of_nat pos) by lia.
    destruct (Z.leb_spec 0 (Z.of_nat pos)); [|lia].
    destruct (Z.ltb_spec (Z.of_nat pos) (Z.of_nat n)); [|lia]. simpl. f_equal; lia.
Qed.
Lemma normalize_axis_err axis n : (axis < - n \/ n <= axis)%Z -> (0 <= n)%Z ->
  normalize_axis axis n = Err ValueError.
Proof.
  intros H Hn; unfold normalize_axis. destruct (Z.ltb_spec axis 0).
  - destruct (Z.leb_spec 0 (axis + n)); simpl; auto. lia.
  - destruct (Z.leb_spec 0 axis); destruct (Z.ltb_spec axis n); simpl; auto. lia.
Qed.

Lemma firstn_app_exact {A} (l1 l2 : list A) : firstn (length l1) (l1 ++ l2) = l1.
Proof. rewrite firstn_app, Nat.sub_diag, firstn_all, firstn_O, app_nil_r. reflexivity. Qed.
Lemma skipn_app_exact {A} (l1 l2 : list A) : skipn (length l1) (l1 ++ l2) = l2.
Proof. rewrite skipn_app, Nat.sub_diag, skipn_all. reflexivity. Qed.

Section R.
  Context {A : Type}.
  Implicit Types (ary : ndarray A) (pre post : list nat).

  Lemma reshape_ok c bases ary pre post axis :
    nd_shape ary = pre ++ space_dim (TPSpace c bases) :: post ->
    names_axis axis (length pre) (length (nd_shape ary)) ->
    exists a, reshape_array_for_tensor_product_space (TPSpace c bases) ary axis = Ok a
      /\ nd_shape a = pre ++ map space_dim bases ++ post
      /\ (forall i1 digits i2, valid_idx i1 pre -> valid_idx digits (map space_dim bases) ->
            valid_idx i2 post ->
            nd_at a (i1 ++ digits ++ i2)
            = nd_at ary (i1 ++ ravelF (map space_dim bases) digits :: i2)).
  Proof.
    intros Hs Hax. unfold reshape_array_for_tensor_product_space.
    rewrite (normalize_axis_ok _ (length pre)); auto.
    2:{ rewrite Hs, app_length; simpl; lia. }
    cbn [bind]. unfold getitem. rewrite Hs.
    rewrite nth_error_app2, Nat.sub_diag by lia. cbn [nth_error bind].
    rewrite Nat.eqb_refl. cbn [negb].
    unfold slice. rewrite Nat.sub_0_r. cbn [skipn]. rewrite firstn_app_exact.
    replace (skipn (length pre + 1) (pre ++ space_dim (TPSpace c bases) :: post)) with post.
    2:{ replace (length pre + 1) with (length (pre ++ [space_dim (TPSpace c bases)]))
          by (rewrite app_length; simpl; lia).
        replace (pre ++ space_dim (TPSpace c bases) :: post)
          with ((pre ++ [space_dim (TPSpace c bases)]) ++ post) by (now rewrite <- app_assoc).
        now rewrite skipn_app_exact. }
    assert (Hsz : prod_nat (pre ++ map space_dim bases ++ post) = prod_nat (nd_shape ary)).
    { rewrite Hs, !prod_nat_app.
      change (prod_nat (space_dim (TPSpace c bases) :: post))
        with (space_dim (TPSpace c bases) * prod_nat post). reflexivity. }
    unfold np_reshapeF. rewrite Hsz, Nat.eqb_refl. eexists. split; [reflexivity|].
    split; [reflexivity|]. intros i1 digits i2 H1 Hd H2. cbn [nd_at]. f_equal.
    pose proof (valid_idx_length _ _ H1) as L1. pose proof (valid_idx_length _ _ Hd) as Ld.
    rewrite ravelF_app by auto. rewrite ravelF_app by auto.
    rewrite Hs.
    replace (ravelF pre i1 + prod_nat pre * (ravelF (map space_dim bases) digits
               + prod_nat (map space_dim bases) * ravelF post i2))
      with (ravelF (pre ++ space_dim (TPSpace c bases) :: post)
                   (i1 ++ ravelF (map space_dim bases) digits :: i2)).
    2:{ rewrite ravelF_app by auto. reflexivity. }
    apply unravelF_ravelF. apply valid_idx_app; auto. constructor; auto.
    apply ravelF_lt in Hd. exact Hd.
  Qed.

  Lemma unreshape_ok c bases ary pre post axis :
    nd_shape ary = pre ++ map space_dim bases ++ post ->
    names_axis axis (length pre) (length pre + 1 + length post) ->
    exists a, unreshape_array_for_tensor_product_space (TPSpace c bases) ary axis = Ok a
      /\ nd_shape a = pre ++ space_dim (TPSpace c bases) :: post
      /\ (forall i1 digits i2, valid_idx i1 pre -> valid_idx digits (map space_dim bases) ->
            valid_idx i2 post ->
            nd_at a (i1 ++ ravelF (map space_dim bases) digits :: i2)
            = nd_at ary (i1 ++ digits ++ i2)).
  Proof.
    intros Hs Hax. unfold unreshape_array_for_tensor_product_space.
    replace (Z.of_nat (length (nd_shape ary)) - Z.of_nat (length bases) + 1)%Z
      with (Z.of_nat (length pre + 1 + length post)).
    2:{ rewrite Hs, !app_length, map_length. lia. }
    rewrite (normalize_axis_ok _ (length pre)); auto; [|lia].
    cbn [bind]. rewrite Hs.
    unfold slice. replace (length pre + length bases - length pre) with (length bases) by lia.
    rewrite skipn_app_exact.
    rewrite <- (map_length space_dim bases). rewrite firstn_app_exact, tuple_eqb_refl. cbn [negb].
    rewrite Nat.sub_0_r. cbn [skipn]. rewrite firstn_app_exact.
    replace (skipn (length pre + length (map space_dim bases)) (pre ++ map space_dim bases ++ post)) with post.
    2:{ rewrite app_assoc, <- app_length. now rewrite skipn_app_exact. }
    assert (Hsz : prod_nat (pre ++ [space_dim (TPSpace c bases)] ++ post) = prod_nat (nd_shape ary)).
    { rewrite Hs, !prod_nat_app. unfold prod_nat at 2; simpl. rewrite Nat.mul_1_r. reflexivity. }
    unfold np_reshapeF. rewrite Hsz, Nat.eqb_refl. eexists. split; [reflexivity|].
    split; [reflexivity|]. intros i1 digits i2 H1 Hd H2. cbn [nd_at]. f_equal.
    pose proof (valid_idx_length _ _ H1) as L1. pose proof (valid_idx_length _ _ Hd) as Ld.
    rewrite Hs.
    rewrite ravelF_app by auto. cbn [app ravelF].
    replace (ravelF pre i1 + prod_nat pre * (ravelF (map space_dim bases) digits
               + space_dim (TPSpace c bases) * ravelF post i2))
      with (ravelF (pre ++ map space_dim bases ++ post) (i1 ++ digits ++ i2)).
    2:{ rewrite ravelF_app by auto. rewrite ravelF_app by auto. reflexivity. }
    apply unravelF_ravelF. apply valid_idx_app; auto. apply valid_idx_app; auto.
  Qed.

  (** Equal as arrays. *)
  Definition same_array (a b : ndarray A) : Prop :=
    nd_shape a = nd_shape b /\ forall idx, valid_idx idx (nd_shape a) -> nd_at a idx = nd_at b idx.

  Lemma roundtrip1 c bases ary pre post axis :
    nd_shape ary = pre ++ space_dim (TPSpace c bases) :: post ->
    names_axis axis (length pre) (length (nd_shape ary)) ->
    exists a b, reshape_array_for_tensor_product_space (TPSpace c bases) ary axis = Ok a
      /\ unreshape_array_for_tensor_product_space (TPSpace c bases) a axis = Ok b
      /\ same_array b ary.
  Proof.
    intros Hs Hax. destruct (reshape_ok c bases ary pre post axis Hs Hax) as (a & Ea & Sa & Va).
    destruct (unreshape_ok c bases a pre post axis Sa) as (b & Eb & Sb & Vb).
    { rewrite Hs, app_length in Hax. simpl in Hax.
      now replace (length pre + 1 + length post) with (length pre + S (length post)) by lia. }
    exists a, b. split; auto. split; auto. split; [congruence|].
    rewrite Sb. intros idx H. apply valid_idx_app_inv in H as (i1 & i' & -> & H1 & H').
    inversion H' as [|k ? i2 ? Hk H2]; subst.
    change (space_dim (TPSpace c bases)) with (prod_nat (map space_dim bases)) in Hk.
    rewrite <- (ravelF_unravelF _ _ Hk).
    rewrite Vb, Va; auto using unravelF_valid.
  Qed.
  Lemma roundtrip2 c bases ary pre post axis :
    nd_shape ary = pre ++ map space_dim bases ++ post ->
    names_axis axis (length pre) (length pre + 1 + length post) ->
    exists a b, unreshape_array_for_tensor_product_space (TPSpace c bases) ary axis = Ok a
      /\ reshape_array_for_tensor_product_space (TPSpace c bases) a axis = Ok b
      /\ same_array b ary.
  Proof.
    intros Hs Hax. destruct (unreshape_ok c bases ary pre post axis Hs Hax) as (a & Ea & Sa & Va).
    destruct (reshape_ok c bases a pre post axis Sa) as (b & Eb & Sb & Vb).
    { rewrite Sa, app_length. simpl.
      now replace (length pre + S (length post)) with (length pre + 1 + length post) by lia. }
    exists a, b. split; auto. split; auto. split; [congruence|].
    rewrite Sb. intros idx H. apply valid_idx_app_inv in H as (i1 & i' & -> & H1 & H').
    apply valid_idx_app_inv in H' as (d & i2 & -> & Hd & H2).
    rewrite Vb, Va; auto.
  Qed.

  Lemma reshape_axis_err c bases ary axis :
    (axis < - Z.of_nat (length (nd_shape ary)) \/ Z.of_nat (length (nd_shape ary)) <= axis)%Z ->
    reshape_array_for_tensor_product_space (TPSpace c bases) ary axis = Err ValueError.
  Proof.
    intros H. unfold reshape_array_for_tensor_product_space.
    rewrite normalize_axis_err by lia. reflexivity.
  Qed.
  Lemma reshape_len_err c bases ary pre m post axis :
    nd_shape ary = pre ++ m :: post -> m <> space_dim (TPSpace c bases) ->
    names_axis axis (length pre) (length (nd_shape ary)) ->
    reshape_array_for_tensor_product_space (TPSpace c bases) ary axis = Err ValueError.
  Proof.
    intros Hs Hm Hax. unfold reshape_array_for_tensor_product_space.
    rewrite (normalize_axis_ok _ (length pre)); auto.
    2:{ rewrite Hs, app_length; simpl; lia. }
    cbn [bind]. unfold getitem. rewrite Hs.
    rewrite nth_error_app2, Nat.sub_diag by lia. cbn [nth_error bind].
    destruct (Nat.eqb_spec m (space_dim (TPSpace c bases))); [contradiction|]. reflexivity.
  Qed.
  Lemma unreshape_axis_err c bases ary axis :
    let naxes := (Z.of_nat (length (nd_shape ary)) - Z.of_nat (length bases) + 1)%Z in
    (axis < - naxes \/ naxes <= axis)%Z -> (0 <= naxes)%Z ->
    unreshape_array_for_tensor_product_space (TPSpace c bases) ary axis = Err ValueError.
  Proof.
    intros naxes H Hn. unfold unreshape_array_for_tensor_product_space. fold naxes.
    rewrite normalize_axis_err by auto. reflexivity.
  Qed.
  Lemma unreshape_shape_err c bases ary pre mid post axis :
    nd_shape ary = pre ++ mid ++ post -> length mid = length bases -> mid <> map space_dim bases ->
    names_axis axis (length pre) (length pre + 1 + length post) ->
    unreshape_array_for_tensor_product_space (TPSpace c bases) ary axis = Err ValueError.
  Proof.
    intros Hs Hl Hm Hax. unfold unreshape_array_for_tensor_product_space.
    replace (Z.of_nat (length (nd_shape ary)) - Z.of_nat (length bases) + 1)%Z
      with (Z.of_nat (length pre + 1 + length post)).
    2:{ rewrite Hs, !app_length. lia. }
    rewrite (normalize_axis_ok _ (length pre)); auto; [|lia].
    cbn [bind]. rewrite Hs.
    unfold slice. replace (length pre + length bases - length pre) with (length mid) by lia.
    rewrite skipn_app_exact, firstn_app_exact.
    destruct (tuple_eqb mid (map space_dim bases)) eqn:E; [apply tuple_eqb_eq in E; contradiction|].
    reflexivity.
  Qed.
End R.
