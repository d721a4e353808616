(** * C74: equality, copies and pickles of shapes and spaces *)
From Coq Require Import List Arith Bool Reals Lra Lia.
From Verif Require Import Py PyToolsModel ModelShapes ModelSpaces ModelPickle EnumFacts SpecGeometry ProofNodeTuples ProofBasisIndex.
Import ListNotations.

(** Two shapes are equal exactly if they are of the same class and have the same fields. *)
Theorem C74_eq s t : shape_eq s t = true <-> s = t.
Proof.
  revert t. induction s as [d|c d bs IH] using shape_ind'; intros [d'|c' d' bs']; cbn [shape_eq]; try (split; [discriminate|discriminate]).
  - rewrite Nat.eqb_eq. split; [now intros ->|congruence].
  - rewrite !andb_true_iff, Nat.eqb_eq.
    assert (T : forall l', (fix tuple_eq (l l' : list shape) {struct l} : bool :=
            match l, l' with [], [] => true | a :: l, a' :: l' => shape_eq a a' && tuple_eq l l' | _, _ => false end) bs l' = true <-> bs = l').
    { clear -IH. induction IH as [|b bs Hb _ IHs]; intros [|a l']; try (split; [discriminate|discriminate]); [easy|].
      rewrite andb_true_iff, Hb, IHs. split; [intros (-> & ->); reflexivity|intros E; injection E as -> ->; now split]. }
    rewrite T. split.
    + intros ((C & ->) & ->). destruct c, c'; try discriminate; reflexivity.
    + intros E. injection E as -> -> ->. destruct c'; repeat split.
Qed.
(** So a square is not equal to the product of two segments, although they are the same set. *)
Theorem C74_square_refuted : exists a b, mk_Hypercube 2 = Ok a /\ mk_TensorProductShape [Simplex 1; Simplex 1] = Ok b
  /\ (forall x, in_shape a x <-> in_shape b x) /\ shape_eq a b = false.
Proof. eexists. eexists. split; [reflexivity|]. split; [reflexivity|]. split; [|reflexivity]. intros x. reflexivity. Qed.

(** Copies of simplices and of hypercubes are equal to the original. *)
Theorem C74_copy_simplex d : copy_shape (Simplex d) = Ok (Simplex d).
Proof. reflexivity. Qed.
Lemma copy_segments k : mapM copy_shape (repeat (Simplex 1) k) = Ok (repeat (Simplex 1) k).
Proof. induction k as [|k IH]; [reflexivity|]. cbn [repeat mapM copy_shape bind]. rewrite IH. reflexivity. Qed.
Lemma flat_segments k : shape_flatten (repeat (Simplex 1) k) = repeat (Simplex 1) k.
Proof. unfold shape_flatten, concat_tuples. induction k as [|k IH]; [reflexivity|]. cbn in *. now rewrite IH. Qed.
Theorem C74_copy_hypercube d s : mk_Hypercube d = Ok s -> copy_shape s = Ok s.
Proof.
  unfold mk_Hypercube. destruct (Nat.eqb_spec d 1) as [->|H]; [intros E; injection E as <-; reflexivity|].
  unfold tp_init. rewrite flat_segments.
  assert (S1 : sum_nat (map shape_dim (repeat (Simplex 1) d)) = d) by (clear; induction d; [reflexivity|]; unfold sum_nat in *; cbn in *; lia).
  cbv zeta. rewrite S1. destruct (_ <? _); [discriminate|]. intros E. injection E as <-. cbn [copy_shape]. rewrite copy_segments. cbn [bind].
  apply Nat.eqb_neq in H. now rewrite H.
Qed.
(** Copies of other products of shapes are not: [copy.copy], [copy.deepcopy] and unpickling raise TypeError. *)
Theorem C74_copy_shape bases s : mk_TensorProductShape bases = Ok s ->
  (exists d, s = Simplex d /\ bases = [s] /\ copy_shape s = Ok s)
  \/ (exists d bs, s = TPShape CTensorProduct d bs /\ copy_shape s = Err TypeError).
Proof.
  intros E. unfold mk_TensorProductShape in E.
  assert (T : forall l, tp_init CTensorProduct l = Ok s -> exists d bs, s = TPShape CTensorProduct d bs).
  { intros l. unfold tp_init. cbv zeta. destruct (_ <? _); [discriminate|]. intros H. injection H as <-. eauto. }
  assert (R : (exists d bs, s = TPShape CTensorProduct d bs) -> exists d bs, s = TPShape CTensorProduct d bs /\ copy_shape s = Err TypeError).
  { intros (d & bs & ->). exists d, bs. split; reflexivity. }
  destruct bases as [|[d0|c0 d0 bs0] [|b1 bases]]; try (right; apply R; exact (T _ E)).
  - left. injection E as <-. exists d0. repeat split.
  - destruct c0; [right; apply R; exact (T _ E)|discriminate].
  - right. apply R. destruct c0; exact (T _ E).
Qed.
Example C74_example_prism : mk_TensorProductShape [Simplex 2; Simplex 1] = Ok (TPShape CTensorProduct 3 [Simplex 2; Simplex 1]).
Proof. reflexivity. Qed.

(** Spaces: a copy of a product of PN spaces has the same dimensions and the same order, and is the
    same object up to identity unless there is just one factor. *)
Definition all_pn (bs : list fspace) : Prop := Forall (fun b => exists d n, b = PN d n) bs.
Lemma copy_pns bs : all_pn bs -> mapM copy_space bs = Ok bs.
Proof. intros H. induction H as [|b bs (d & n & ->) _ IH]; [reflexivity|]. cbn [mapM copy_space bind]. now rewrite IH. Qed.
Lemma copy_tensor bs : all_pn bs -> exists s', copy_space (TPSpace STensorProduct bs) = Ok s'
  /\ spatial_dim s' = spatial_dim (TPSpace STensorProduct bs) /\ space_dim s' = space_dim (TPSpace STensorProduct bs)
  /\ (bs <> [] -> space_order s' = space_order (TPSpace STensorProduct bs)) /\ (length bs <> 1 -> s' = TPSpace STensorProduct bs).
Proof.
  intros H. cbn [copy_space]. rewrite (copy_pns bs H). cbn [bind]. destruct bs as [|b [|b' bs]].
  - eexists. split; [reflexivity|]. repeat split.
  - destruct (Forall_inv H) as (d & n & ->). exists (PN d n). split; [reflexivity|]. cbn [spatial_dim space_dim map]. unfold sum_nat, prod_nat. cbn [fold_right].
    split; [lia|]. split; [lia|]. split; [|cbn; lia]. intros _. cbn. reflexivity.
  - eexists. split; [reflexivity|]. repeat split.
Qed.
Theorem C74_copy_pn d n : copy_space (PN d n) = Ok (PN d n).
Proof. reflexivity. Qed.
(** All spaces the library makes for a shape can be copied and pickled. *)
Lemma flat_pns ss : Forall (fun s => (exists d n, s = PN d n) \/ exists bs, s = TPSpace STensorProduct bs /\ all_pn bs) ss -> all_pn (space_flatten ss).
Proof.
  unfold space_flatten, concat_tuples, all_pn. induction 1 as [|s ss Hs _ IH]; [constructor|]. cbn [map concat]. apply Forall_app. split; [|exact IH].
  destruct Hs as [(d & n & ->)|(bs & -> & Hb)]; [|exact Hb]. constructor; [eauto|constructor].
Qed.
Lemma space_for_shape_pns sh : forall ord s, space_for_shape sh ord = Ok s -> (exists d n, s = PN d n) \/ exists bs, s = TPSpace STensorProduct bs /\ all_pn bs.
Proof.
  induction sh as [d|c d bs IH] using shape_ind'; intros ord s E.
  - destruct ord; [|discriminate]. injection E as <-. left. eauto.
  - cbn [space_for_shape] in E. destruct (match ord with OInt n => _ | OTuple ns => _ end) as [orders|]; [|discriminate]. cbn [bind] in E.
    destruct (zipM _ bs orders) as [ss|] eqn:Z; [|discriminate]. cbn [bind] in E.
    assert (F : Forall (fun s => (exists d n, s = PN d n) \/ exists bs, s = TPSpace STensorProduct bs /\ all_pn bs) ss).
    { clear E. revert orders ss Z. induction IH as [|b bs Hb _ IHs]; intros [|o orders] ss Z; cbn [zipM] in Z.
      1,2,3: assert (ss = []) as -> by congruence; constructor.
      destruct (space_for_shape b (OInt o)) as [sb|] eqn:Eb; [|discriminate]. cbn [bind] in Z. destruct (zipM _ bs orders) as [ss'|] eqn:Z'; [|discriminate]. cbn [bind] in Z.
      assert (ss = sb :: ss') as -> by congruence. constructor; [exact (Hb _ _ Eb)|exact (IHs _ _ Z')]. }
    pose proof (flat_pns ss F) as FP.
    assert (G : tps_init STensorProduct ss = s \/ exists d n, s = PN d n).
    { unfold mk_TensorProductSpace in E. destruct ss as [|[d0 n0|c0 bs0] [|s1 ss]]; try (left; congruence).
      - right. exists d0, n0. congruence.
      - destruct c0; [left; congruence|discriminate].
      - left. destruct c0; congruence. }
    destruct G as [<-|G]; [right|now left]. unfold tps_init. eauto.
Qed.
Theorem C74_copy_space_for_shape sh ord s : space_for_shape sh ord = Ok s ->
  exists s', copy_space s = Ok s' /\ spatial_dim s' = spatial_dim s /\ space_dim s' = space_dim s
    /\ (s <> TPSpace STensorProduct [] -> space_order s' = space_order s)
    /\ ((forall b, s <> TPSpace STensorProduct [b]) -> s' = s).
Proof.
  intros E. destruct (space_for_shape_pns sh ord s E) as [(d & n & ->)|(bs & -> & HP)].
  - exists (PN d n). repeat split.
  - destruct (copy_tensor bs HP) as (s' & E' & H1 & H2 & H3 & H4). exists s'. split; [exact E'|]. split; [exact H1|]. split; [exact H2|]. split.
    + intros N. apply H3. intros ->. now apply N.
    + intros N. apply H4. intros L. destruct bs as [|b [|b' bs]]; try discriminate. now apply (N b).
Qed.
Example C74_example_space : space_for_shape (TPShape CTensorProduct 3 [Simplex 2; Simplex 1]) (OInt 4) = Ok (TPSpace STensorProduct [PN 2 4; PN 1 4])
  /\ copy_space (TPSpace STensorProduct [PN 2 4; PN 1 4]) = Ok (TPSpace STensorProduct [PN 2 4; PN 1 4]).
Proof. split; reflexivity. Qed.
(** A QN of any dimension other than one cannot: its [__new__] wants an order and is not given one. *)
Theorem C74_copy_qn_refuted d n : copy_space (mk_QN d n) = if d =? 1 then Ok (PN 1 n) else Err TypeError.
Proof.
  unfold mk_QN. destruct (Nat.eqb_spec d 1) as [->|H]; [reflexivity|]. unfold tps_init. cbn [copy_space].
  assert (P : all_pn (space_flatten (repeat (PN 1 n) d))) by (apply flat_pns, Forall_forall; intros s Hs; apply repeat_spec in Hs; left; eauto).
  now rewrite (copy_pns _ P).
Qed.

Print Assumptions C74_eq.
Print Assumptions C74_square_refuted.
Print Assumptions C74_copy_simplex.
Print Assumptions C74_copy_hypercube.
Print Assumptions C74_copy_shape.
Print Assumptions C74_copy_pn.
Print Assumptions C74_copy_space_for_shape.
Print Assumptions C74_copy_qn_refuted.
