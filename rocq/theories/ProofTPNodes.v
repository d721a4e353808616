(** * Proofs about tensor_product_nodes (C03). *)
From Coq Require Import List Arith Bool Reals Lia.
From Verif Require Import Py PyToolsModel ModelNd ModelShapes ModelSpaces ModelNodes
  EnumFacts SpecIndex ProofNodeTuples.
Import ListNotations.

Lemma bcast_idx_app s1 s2 i1 i2 : length s1 = length i1 ->
  bcast_idx (s1 ++ s2) (i1 ++ i2) = bcast_idx s1 i1 ++ bcast_idx s2 i2.
Proof.
  revert i1; induction s1 as [|n s1 IH]; destruct i1 as [|i i1]; simpl; try easy.
  intros H. rewrite IH by lia. reflexivity.
Qed.
Lemma bcast_ok_app s1 s2 d1 d2 : length s1 = length d1 ->
  bcast_ok (s1 ++ s2) (d1 ++ d2) = bcast_ok s1 d1 && bcast_ok s2 d2.
Proof.
  revert d1; induction s1 as [|n s1 IH]; destruct d1 as [|i d1]; simpl; try easy.
  intros H. rewrite IH by lia. now rewrite andb_assoc.
Qed.
Lemma bcast_idx_ones k idx : length idx = k -> bcast_idx (repeat 1 k) idx = repeat 0 k.
Proof.
  revert idx; induction k as [|k IH]; destruct idx; simpl; try easy.
  intros H. now rewrite IH by lia.
Qed.
Lemma bcast_ok_ones k d : length d = k -> bcast_ok (repeat 1 k) d = true.
Proof.
  revert d; induction k as [|k IH]; destruct d; simpl; try easy. intros H; now rewrite IH by lia.
Qed.
Lemma ravelC_ones k : ravelC (repeat 1 k) (repeat 0 k) = 0.
Proof. induction k as [|k IH]; simpl; auto. Qed.
Lemma prod_ones k : prod_nat (repeat 1 k) = 1.
Proof. induction k as [|k IH]; unfold prod_nat in *; simpl; lia. Qed.

Section TPN.
  Context {A : Type} (junk : list nat -> A).

  (** A two-dimensional nodeset with [d] rows and [n] columns. *)
  Definition has_dims (a : ndarray A) (dn : nat * nat) : Prop := nd_shape a = [fst dn; snd dn].

  (** One assignment of the loop. *)
  Lemma assign_step nsets i d dims (pre post : list nat) (nodes result : ndarray A) d_i n_i :
    nd_shape nodes = [d_i; n_i] ->
    nsets = length pre + 1 + length post -> i = length pre ->
    nd_shape result = dims :: pre ++ n_i :: post ->
    d + d_i <= dims ->
    exists result',
      (let* val := np_reshapeC nodes (d_i :: repeat 1 i ++ [n_i] ++ repeat 1 (nsets - i - 1)) in
       np_assign_rows result d d_i val) = Ok result'
      /\ nd_shape result' = nd_shape result
      /\ (forall r idx, r < d \/ d + d_i <= r -> nd_at result' (r :: idx) = nd_at result (r :: idx))
      /\ (forall r i1 j i2, r < d_i -> length i1 = length pre -> length i2 = length post -> j < n_i ->
            nd_at result' ((d + r) :: i1 ++ j :: i2) = nd_at nodes [r; j]).
  Proof.
    intros Hn -> -> Hr Hd.
    replace (length pre + 1 + length post - length pre - 1) with (length post) by lia.
    set (bs := d_i :: repeat 1 (length pre) ++ [n_i] ++ repeat 1 (length post)).
    assert (Hsize : prod_nat bs = prod_nat (nd_shape nodes)).
    { unfold bs. rewrite Hn. change (prod_nat (d_i :: ?l)) with (d_i * prod_nat l).
      rewrite !prod_nat_app, !prod_ones. unfold prod_nat; simpl. lia. }
    unfold np_reshapeC. rewrite Hsize, Nat.eqb_refl. cbn [bind].
    unfold np_assign_rows. rewrite Hr.
    replace (Nat.min (d + d_i) dims - Nat.min d dims) with d_i by lia.
    cbn [nd_shape].
    assert (Hok : bcast_ok bs (d_i :: pre ++ n_i :: post) = true).
    { unfold bs. cbn [bcast_ok]. rewrite Nat.eqb_refl, orb_true_r. cbn [andb].
      rewrite bcast_ok_app by (now rewrite repeat_length).
      rewrite bcast_ok_ones by reflexivity. cbn [andb app bcast_ok].
      rewrite Nat.eqb_refl, orb_true_r. cbn [andb]. apply bcast_ok_ones; reflexivity. }
    rewrite Hok. eexists. split; [reflexivity|]. split; [reflexivity|]. cbn [nd_at]. split.
    - intros r idx Hrr. destruct (d <=? r) eqn:E1; simpl; auto.
      destruct (r <? d + d_i) eqn:E2; auto.
      apply Nat.leb_le in E1. apply Nat.ltb_lt in E2. lia.
    - intros r i1 j i2 Hrr H1 H2 Hj.
      replace (d <=? d + r) with true by (symmetry; apply Nat.leb_le; lia).
      replace (d + r <? d + d_i) with true by (symmetry; apply Nat.ltb_lt; lia).
      cbn [andb]. replace (d + r - d) with r by lia.
      rewrite Hn. f_equal.
      assert (E : ravelC bs (bcast_idx bs (r :: i1 ++ j :: i2)) = ravelC [d_i; n_i] [r; j]).
      { unfold bs. cbn [bcast_idx].
        change ([n_i] ++ repeat 1 (length post)) with (n_i :: repeat 1 (length post)).
        rewrite bcast_idx_app by (now rewrite repeat_length).
        rewrite (bcast_idx_ones (length pre)) by auto. cbn [bcast_idx].
        rewrite bcast_idx_ones by auto.
        cbn [ravelC]. rewrite ravelC_app by (now rewrite !repeat_length).
        rewrite ravelC_ones. cbn [ravelC]. rewrite ravelC_ones, prod_nat_app, !prod_ones.
        change (prod_nat (n_i :: repeat 1 (length post))) with (n_i * prod_nat (repeat 1 (length post))).
        rewrite prod_ones. unfold prod_nat; simpl.
        destruct (d_i =? 1) eqn:Ed; destruct (n_i =? 1) eqn:En;
          try apply Nat.eqb_eq in Ed; try apply Nat.eqb_eq in En; subst; nia. }
      rewrite E. apply unravelC_ravelC. repeat constructor; auto.
  Qed.

  (** Where row [R] of the result comes from: block [k] of the nodesets, row [r]. *)
  Lemma fill_ok rest : forall nsets i d dims pre result dns,
    Forall2 has_dims rest dns ->
    nsets = length pre + length rest -> i = length pre ->
    nd_shape result = dims :: pre ++ map snd dns ->
    d + sum_nat (map fst dns) <= dims ->
    exists result',
      tpn_fill nsets i d rest result = Ok result'
      /\ nd_shape result' = nd_shape result
      /\ (forall r idx, r < d -> nd_at result' (r :: idx) = nd_at result (r :: idx))
      /\ (forall k nodes d_k n_k r idx j,
            nth_error rest k = Some nodes -> nth_error dns k = Some (d_k, n_k) ->
            r < d_k -> length idx = nsets -> nth_error idx (i + k) = Some j -> j < n_k ->
            nd_at result' ((d + sum_nat (map fst (firstn k dns)) + r) :: idx) = nd_at nodes [r; j]).
  Proof.
    induction rest as [|nodes rest IH]; intros nsets i d dims pre result dns Hd Hns Hi Hsh Hrows;
      inversion Hd as [|? [d_i n_i] ? dns' Hh Hd']; subst.
    - simpl. exists result. repeat split; auto. intros k; destruct k; discriminate.
    - simpl in Hsh. unfold has_dims in Hh; simpl in Hh.
      assert (Hlen : length dns' = length rest) by (symmetry; eapply Forall2_length; eauto).
      assert (Hsum : sum_nat (map fst ((d_i, n_i) :: dns')) = d_i + sum_nat (map fst dns')) by reflexivity.
      destruct (assign_step (length pre + length (nodes :: rest)) (length pre) d dims pre (map snd dns')
                            nodes result d_i n_i Hh) as (r1 & E1 & S1 & U1 & V1); auto.
      { simpl. rewrite map_length. lia. } { lia. }
      destruct (np_reshapeC nodes (d_i :: repeat 1 (length pre) ++ [n_i] ++
                 repeat 1 (length pre + length (nodes :: rest) - length pre - 1))) as [val|] eqn:Ev;
        [|discriminate]. cbn [bind] in E1.
      destruct (IH (length pre + length (nodes :: rest)) (S (length pre)) (d + d_i) dims (pre ++ [n_i]) r1 dns')
        as (r2 & E2 & S2 & U2 & V2); auto.
      { rewrite app_length; simpl; lia. } { rewrite app_length; simpl; lia. }
      { rewrite S1, Hsh, <- app_assoc. reflexivity. } { lia. }
      exists r2. split; [|split; [congruence|split]].
      + simpl tpn_fill. rewrite Hh. simpl in Ev. rewrite Ev. cbn [bind]. rewrite E1. cbn [bind].
        exact E2.
      + intros r idx Hr. rewrite U2 by lia. apply U1. lia.
      + intros k nodes0 d_k n_k r idx j Hk Hdk Hr Hidx Hj Hjn. destruct k as [|k].
        * simpl in Hk, Hdk. injection Hk as <-. injection Hdk as <- <-.
          simpl (firstn 0 _). simpl (sum_nat _). rewrite Nat.add_0_r in *.
          rewrite U2 by lia.
          apply nth_error_split in Hj as (i1 & i2 & -> & Hi1).
          apply V1; auto. rewrite app_length in Hidx. simpl in Hidx. rewrite map_length. lia.
        * simpl in Hk, Hdk.
          replace (d + sum_nat (map fst (firstn (S k) ((d_i, n_i) :: dns'))) + r)
            with (d + d_i + sum_nat (map fst (firstn k dns')) + r)
            by (simpl; unfold sum_nat; simpl; lia).
          eapply V2; eauto. replace (S (length pre) + k) with (length pre + S k) by lia. exact Hj.
  Qed.

  Lemma mapM_shape_last nodesets dns :
    Forall2 has_dims nodesets dns -> mapM shape_last nodesets = Ok (map snd dns).
  Proof.
    induction 1 as [|a [d n] l dns H _ IH]; simpl; [reflexivity|].
    unfold shape_last at 1. rewrite H; simpl. now rewrite IH.
  Qed.
  Lemma mapM_shape_first nodesets dns :
    Forall2 has_dims nodesets dns -> mapM shape_first nodesets = Ok (map fst dns).
  Proof.
    induction 1 as [|a [d n] l dns H _ IH]; simpl; [reflexivity|].
    unfold shape_first at 1. rewrite H; simpl. now rewrite IH.
  Qed.
  Lemma mapM_as2d nodesets dns :
    Forall2 has_dims nodesets dns -> mapM tpn_as2d nodesets = Ok nodesets.
  Proof.
    induction 1 as [|a [d n] l dns H _ IH]; simpl; [reflexivity|].
    unfold tpn_as2d at 1. rewrite H; simpl. now rewrite IH.
  Qed.

  Lemma sum_firstn_lt (dns : list (nat * nat)) k d_k n_k r :
    nth_error dns k = Some (d_k, n_k) -> r < d_k ->
    sum_nat (map fst (firstn k dns)) + r < sum_nat (map fst dns).
  Proof.
    revert k; induction dns as [|[d n] dns IH]; intros [|k] H Hr; simpl in *; try discriminate.
    - injection H as -> ->. unfold sum_nat; simpl. lia.
    - specialize (IH k H Hr). unfold sum_nat in *; simpl. lia.
  Qed.

  Lemma tpn_core_ok nodesets dns :
    Forall2 has_dims nodesets dns ->
    0 < sum_nat (map fst dns) ->
    exists a,
      tpn_core junk nodesets (sum_nat (map fst dns)) = Ok a
      /\ nd_shape a = [sum_nat (map fst dns); prod_nat (map snd dns)]
      /\ (forall k nodes d_k n_k r digits j,
            nth_error nodesets k = Some nodes -> nth_error dns k = Some (d_k, n_k) ->
            r < d_k -> valid_idx digits (map snd dns) -> nth_error digits k = Some j ->
            nd_at a [sum_nat (map fst (firstn k dns)) + r; ravelF (map snd dns) digits]
            = nd_at nodes [r; j]).
  Proof.
    intros H Hpos. unfold tpn_core. rewrite (mapM_shape_last _ _ H). cbn [bind].
    destruct (fill_ok nodesets (length nodesets) 0 0 (sum_nat (map fst dns)) []
                (np_empty junk (sum_nat (map fst dns) :: map snd dns)) dns H)
      as (res & E & S & _ & V); auto.
    rewrite E. cbn [bind].
    destruct (sum_nat (map fst dns) =? 0) eqn:E0; [apply Nat.eqb_eq in E0; lia|].
    cbn [np_empty nd_shape] in S. rewrite S.
    change (prod_nat (sum_nat (map fst dns) :: map snd dns))
      with (sum_nat (map fst dns) * prod_nat (map snd dns)).
    rewrite Nat.mul_comm, Nat.div_mul by lia.
    unfold np_reshapeF. rewrite S.
    replace (prod_nat [sum_nat (map fst dns); prod_nat (map snd dns)])
      with (sum_nat (map fst dns) * prod_nat (map snd dns)) by (unfold prod_nat; simpl; lia).
    change (prod_nat (sum_nat (map fst dns) :: map snd dns))
      with (sum_nat (map fst dns) * prod_nat (map snd dns)).
    rewrite Nat.eqb_refl. eexists. split; [reflexivity|]. split; [reflexivity|].
    intros k nodes d_k n_k r digits j Hk Hdk Hr Hv Hj. cbn [nd_at nd_shape].
    assert (Hrow : sum_nat (map fst (firstn k dns)) + r < sum_nat (map fst dns))
      by (eapply sum_firstn_lt; eauto).
    replace (ravelF [sum_nat (map fst dns); prod_nat (map snd dns)]
               [sum_nat (map fst (firstn k dns)) + r; ravelF (map snd dns) digits])
      with (ravelF (sum_nat (map fst dns) :: map snd dns)
                   ((sum_nat (map fst (firstn k dns)) + r) :: digits))
      by (simpl; lia).
    rewrite unravelF_ravelF by (constructor; auto).
    assert (Hjn : j < n_k).
    { assert (Hm : nth_error (map snd dns) k = Some n_k) by (rewrite nth_error_map, Hdk; reflexivity).
      clear -Hv Hj Hm. revert digits Hv Hj Hm. revert k. induction (map snd dns) as [|n ns IH];
        intros k digits Hv Hj Hm; inversion Hv; subst; destruct k; simpl in *; try discriminate.
      - congruence.
      - eapply IH; eauto. }
    rewrite <- (V k nodes d_k n_k r digits j); auto.
    apply valid_idx_length in Hv. rewrite Hv, map_length. symmetry; eapply Forall2_length; eauto.
  Qed.

  Lemma tpn_core_zero nodesets dns :
    Forall2 has_dims nodesets dns -> sum_nat (map fst dns) = 0 ->
    exists a, tpn_core junk nodesets 0 = Ok a /\ nd_shape a = [0; 1].
  Proof.
    intros H H0. unfold tpn_core. rewrite (mapM_shape_last _ _ H). cbn [bind].
    destruct (fill_ok nodesets (length nodesets) 0 0 0 []
                (np_empty junk (0 :: map snd dns)) dns H)
      as (res & E & S & _ & _); auto; try lia.
    rewrite E. cbn [bind]. simpl. unfold np_reshapeC. rewrite S. cbn [np_empty nd_shape].
    change (prod_nat (0 :: map snd dns)) with 0. simpl. eexists; split; reflexivity.
  Qed.

  (** 1-d nodesets are turned into one row. *)
  Definition set_dims (a : ndarray A) (dn : nat * nat) : Prop :=
    nd_shape a = [fst dn; snd dn] \/ (fst dn = 1 /\ nd_shape a = [snd dn]).
  Definition set_entry (a : ndarray A) (r j : nat) : A :=
    match nd_shape a with [_] => nd_at a [j] | _ => nd_at a [r; j] end.

  Lemma as2d_sets sets dns :
    Forall2 set_dims sets dns ->
    exists nodesets, mapM tpn_as2d sets = Ok nodesets /\ Forall2 has_dims nodesets dns
      /\ (forall k s n d_k n_k r j, nth_error sets k = Some s -> nth_error nodesets k = Some n ->
            nth_error dns k = Some (d_k, n_k) -> r < d_k -> j < n_k ->
            nd_at n [r; j] = set_entry s r j).
  Proof.
    induction 1 as [|a [d n] l dns H _ (ns & E & F & V)].
    - exists []; simpl; repeat split; auto. intros k; destruct k; discriminate.
    - destruct H as [H|[H1 H2]]; simpl in *.
      + exists (a :: ns). split; [|split].
        * unfold tpn_as2d at 1. rewrite H; simpl. now rewrite E.
        * constructor; auto.
        * intros [|k] s n0 d_k n_k r j Hs Hn Hd Hr Hj; simpl in *; [|eapply V; eauto].
          injection Hs as <-. injection Hn as <-. unfold set_entry. now rewrite H.
      + subst d. assert (Ea : exists a', tpn_as2d a = Ok a' /\ nd_shape a' = [1; n]
              /\ (forall r j, r < 1 -> j < n -> nd_at a' [r; j] = nd_at a [j])).
        { unfold tpn_as2d. rewrite H2. unfold np_reshapeC. rewrite H2.
          replace (prod_nat [1; n]) with (prod_nat [n]) by (unfold prod_nat; simpl; lia).
          rewrite Nat.eqb_refl. eexists; split; [reflexivity|]. split; [reflexivity|].
          intros r j Hr Hj. cbn [nd_at]. f_equal. assert (r = 0) by lia; subst r.
          replace (ravelC [1; n] [0; j]) with (ravelC [n] [j]) by (unfold prod_nat; simpl; lia).
          apply unravelC_ravelC. repeat constructor; auto. }
        destruct Ea as (a' & Ea & Sa & Va).
        exists (a' :: ns). split; [|split].
        * rewrite Ea; simpl. now rewrite E.
        * constructor; auto.
        * intros [|k] s n0 d_k n_k r j Hs Hn Hd Hr Hj; simpl in *; [|eapply V; eauto].
          injection Hs as <-. injection Hn as <-. injection Hd as <- <-.
          rewrite Va by auto. unfold set_entry. now rewrite H2.
  Qed.

  Lemma c03_proof sets dns :
    Forall2 set_dims sets dns ->
    exists a,
      tensor_product_nodes junk (inr sets) None = Ok a
      /\ (total (map fst dns) <> 0 ->
          nd_shape a = [total (map fst dns); product_of (map snd dns)])
      /\ (total (map fst dns) = 0 -> nd_shape a = [0; 1])
      /\ (forall k s d_k n_k r digits j,
            nth_error sets k = Some s -> nth_error dns k = Some (d_k, n_k) ->
            r < d_k -> legal_digits (map snd dns) digits -> nth_error digits k = Some j ->
            nd_at a [total (map fst (firstn k dns)) + r; mixed_radix (map snd dns) digits]
            = set_entry s r j).
  Proof.
    intros H. destruct (as2d_sets _ _ H) as (ns & E & F & V).
    unfold tensor_product_nodes. rewrite E. cbn [bind].
    rewrite (mapM_shape_first _ _ F). cbn [bind].
    destruct (Nat.eq_dec (sum_nat (map fst dns)) 0) as [H0|H0].
    - destruct (tpn_core_zero ns dns F H0) as (a & Ea & Sa).
      exists a. rewrite H0. split; [exact Ea|]. split; [intros Hc; elim Hc; exact H0|].
      split; [auto|]. intros k s d_k n_k r digits j Hs Hd Hr.
      exfalso. pose proof (sum_firstn_lt _ _ _ _ _ Hd Hr). lia.
    - destruct (tpn_core_ok ns dns F) as (a & Ea & Sa & Va); [lia|].
      exists a. split; [exact Ea|]. split; [auto|]. split; [intros Hc; elim H0; exact Hc|].
      intros k s d_k n_k r digits j Hs Hd Hr Hl Hj.
      assert (exists n, nth_error ns k = Some n) as (n & Hn).
      { destruct (nth_error ns k) eqn:En; eauto. apply nth_error_None in En.
        apply Forall2_length in F. assert (nth_error dns k = None) by (apply nth_error_None; lia).
        congruence. }
      rewrite mixed_radix_ravelF. change total with sum_nat.
      rewrite (Va k n d_k n_k r digits j); auto.
      eapply V; eauto.
      assert (Hm : nth_error (map snd dns) k = Some n_k) by (rewrite nth_error_map, Hd; reflexivity).
      clear -Hl Hj Hm. revert digits Hl Hj Hm. revert k. induction (map snd dns) as [|m ms IH];
        intros k digits Hv Hj Hm; inversion Hv; subst; destruct k; simpl in *; try discriminate.
      + congruence.
      + eapply IH; eauto.
  Qed.

  (** The integer-first-argument form. *)
  Lemma c03_int_proof dims n1 size :
    nd_shape n1 = [size] -> 0 < dims ->
    exists a,
      tensor_product_nodes junk (inl dims) (Some n1) = Ok a
      /\ nd_shape a = [dims; size ^ dims]
      /\ (forall r digits j, r < dims -> legal_digits (repeat size dims) digits ->
            nth_error digits r = Some j ->
            nd_at a [r; mixed_radix (repeat size dims) digits] = nd_at n1 [j]).
  Proof.
    intros Hs Hd. unfold tensor_product_nodes.
    rewrite Hs. unfold np_reshapeC. rewrite Hs.
    replace (prod_nat [size]) with size by (unfold prod_nat; simpl; lia).
    replace (prod_nat [1; size]) with size by (unfold prod_nat; simpl; lia).
    rewrite Nat.eqb_refl. cbn [bind].
    set (row := mkNd [1; size] _).
    assert (F : Forall2 has_dims (repeat row dims) (repeat (1, size) dims)).
    { clear. induction dims; simpl; constructor; auto. reflexivity. }
    assert (Esum : sum_nat (map fst (repeat (1, size) dims)) = dims).
    { clear. induction dims as [|n IH]; [reflexivity|]. unfold sum_nat in *; simpl; lia. }
    assert (Eprod : map snd (repeat (1, size) dims) = repeat size dims).
    { clear. induction dims; simpl; congruence. }
    destruct (tpn_core_ok _ _ F) as (a & Ea & Sa & Va); [lia|].
    rewrite Esum in Ea, Sa. exists a. split; [exact Ea|]. split.
    { rewrite Sa, Eprod. do 2 f_equal. clear. induction dims as [|n IH]; [reflexivity|].
      unfold prod_nat in *; simpl; rewrite IH; reflexivity. }
    intros r digits j Hr Hl Hj. rewrite mixed_radix_ravelF.
    rewrite Eprod in Va.
    assert (Hnr : nth_error (repeat row dims) r = Some row).
    { clear -Hr. revert r Hr; induction dims; intros [|r] Hr; simpl; try lia; auto. apply IHdims; lia. }
    assert (Hnd : nth_error (repeat (1, size) dims) r = Some (1, size)).
    { clear -Hr. revert r Hr; induction dims; intros [|r] Hr; simpl; try lia; auto. apply IHdims; lia. }
    pose proof (Va r row 1 size 0 digits j Hnr Hnd ltac:(lia) Hl Hj) as E.
    replace (sum_nat (map fst (firstn r (repeat (1, size) dims))) + 0) with r in E.
    2:{ clear -Hr. revert r Hr; induction dims as [|n IH]; intros [|r] Hr; simpl; try lia; auto.
        specialize (IH r ltac:(lia)). unfold sum_nat in *; simpl. lia. }
    rewrite E. unfold row. cbn [nd_at]. f_equal.
    replace (ravelC [1; size] [0; j]) with (ravelC [size] [j]) by (unfold prod_nat; simpl; lia).
    apply unravelC_ravelC. constructor; [|constructor].
    clear -Hl Hj. revert r digits Hl Hj. induction dims as [|n IH]; intros r digits Hl Hj; inversion Hl; subst;
      destruct r; simpl in *; try discriminate.
    - congruence.
    - eapply IH; eauto.
  Qed.
End TPN.

(** ** The list-of-columns form used for float arrays. *)

Definition wf_pts (p : points) : Prop := Forall (fun c => length c = pts_dim p) (pts_cols p).

Lemma row_split (ds : list nat) R : R < sum_nat ds ->
  exists k d r, nth_error ds k = Some d /\ r < d /\ R = sum_nat (firstn k ds) + r.
Proof.
  revert R; induction ds as [|d ds IH]; intros R H; unfold sum_nat in *; simpl in *; [lia|].
  destruct (Nat.lt_ge_cases R d) as [Hlt|Hge].
  - exists 0, d, R. simpl. repeat split; auto.
  - destruct (IH (R - d)) as (k & d' & r & H1 & H2 & H3); [lia|].
    exists (S k), d', r. simpl. repeat split; auto. lia.
Qed.

Lemma nth_error_concat_block {A} (parts : list (list A)) ds k d r :
  Forall2 (fun p d => length p = d) parts ds ->
  nth_error ds k = Some d -> r < d ->
  nth_error (concat parts) (sum_nat (firstn k ds) + r)
  = match nth_error parts k with Some p => nth_error p r | None => None end.
Proof.
  intros H; revert k; induction H as [|p d0 parts ds Hp H IH]; intros [|k] Hk Hr; simpl in *; try discriminate.
  - injection Hk as ->. rewrite nth_error_app1 by lia. reflexivity.
  - rewrite nth_error_app2 by (unfold sum_nat; simpl; lia).
    rewrite <- IH by auto. f_equal. unfold sum_nat; simpl; lia.
Qed.

Lemma selects_nth {A} (tss : list (list A)) idx parts k i :
  selects tss idx parts -> nth_error idx k = Some i ->
  exists l p, nth_error tss k = Some l /\ nth_error parts k = Some p /\ nth_error l i = Some p.
Proof.
  intros H; revert k; induction H; intros [|k] Hk; simpl in *; try discriminate; eauto.
  injection Hk as <-. eauto.
Qed.

Lemma tensor_product_pts_ok sets :
  Forall wf_pts sets ->
  exists p, tensor_product_pts sets = Ok p
    /\ pts_dim p = sum_nat (map pts_dim sets)
    /\ (sum_nat (map pts_dim sets) <> 0 -> pts_cols p = tp_tuples (map pts_cols sets))
    /\ (sum_nat (map pts_dim sets) = 0 -> pts_cols p = [[]])
    /\ wf_pts p.
Proof.
  intros Hwf. unfold tensor_product_pts.
  set (dns := map (fun s => (pts_dim s, length (pts_cols s))) sets).
  assert (Hd : Forall2 set_dims (map pts_to_nd sets) dns).
  { unfold dns. clear. induction sets; simpl; constructor; auto. left; reflexivity. }
  assert (Efst : map fst dns = map pts_dim sets) by (unfold dns; now rewrite map_map).
  assert (Esnd : map snd dns = map (@length _) (map pts_cols sets)) by (unfold dns; now rewrite !map_map).
  destruct (c03_proof (fun _ => 0%R) _ _ Hd) as (a & Ea & S1 & S0 & V).
  rewrite Ea. cbn [bind]. eexists. split; [reflexivity|].
  change total with sum_nat in *. change product_of with prod_nat in *. rewrite Efst in *.
  destruct (Nat.eq_dec (sum_nat (map pts_dim sets)) 0) as [E0|E0].
  { specialize (S0 E0). unfold pts_of_nd, nd_columns, wf_pts. cbn [pts_dim pts_cols].
    rewrite S0. simpl. rewrite E0. repeat split; auto; try easy. }
  specialize (S1 E0). unfold pts_of_nd, nd_columns. rewrite S1. cbn [pts_dim pts_cols hd].
  assert (Hcols : map (fun k => map (fun r => nd_at a [r; k]) (seq 0 (sum_nat (map pts_dim sets))))
            (seq 0 (prod_nat (map snd dns))) = tp_tuples (map pts_cols sets)).
  { rewrite Esnd in *. apply nth_error_ext.
    - rewrite tp_tuples_length, map_length, seq_length. reflexivity.
    - rewrite map_length, seq_length. intros k Hk.
      set (ns := map (@length _) (map pts_cols sets)) in *.
      pose proof (unravelF_valid ns k Hk) as Hv.
      destruct (selects_exists (map pts_cols sets) (unravelF ns k) Hv) as (parts & Hp).
      rewrite <- (ravelF_unravelF ns k Hk) at 2.
      unfold ns at 2. rewrite (tp_tuples_nth _ _ _ Hp).
      rewrite nth_error_map, nth_error_seq by lia. cbn [option_map]. f_equal.
      assert (Hpl : Forall2 (fun p d => length p = d) parts (map pts_dim sets)).
      { apply selects_In in Hp. clear -Hp Hwf. revert parts Hp.
        induction Hwf as [|s sets Hs _ IH]; intros parts Hp; inversion Hp; subst; simpl; constructor; auto.
        unfold wf_pts in Hs. rewrite Forall_forall in Hs. auto. }
      assert (Hcl : length (concat parts) = sum_nat (map pts_dim sets)).
      { clear -Hpl. induction Hpl as [|p d parts ds Hp _ IH]; simpl; [reflexivity|].
        rewrite app_length, IH, Hp. reflexivity. }
      apply nth_error_ext.
      + now rewrite map_length, seq_length.
      + rewrite map_length, seq_length. intros R HR.
        rewrite nth_error_map, nth_error_seq by lia. cbn [option_map]. rewrite !Nat.add_0_l.
        destruct (row_split _ _ HR) as (b & d & r & Hb & Hr & ER).
        rewrite ER at 2. rewrite (nth_error_concat_block _ _ _ _ _ Hpl Hb Hr).
        assert (exists j, nth_error (unravelF ns k) b = Some j) as (j & Hj).
        { destruct (nth_error (unravelF ns k) b) eqn:Ej; eauto. apply nth_error_None in Ej.
          apply valid_idx_length in Hv. rewrite Hv in Ej. unfold ns in Ej.
          rewrite !map_length in Ej.
          assert (nth_error (map pts_dim sets) b = None) by (apply nth_error_None; rewrite map_length; lia).
          congruence. }
        destruct (selects_nth _ _ _ _ _ Hp Hj) as (l & p & Hl & Hpp & Hlp).
        rewrite Hpp.
        rewrite nth_error_map in Hl. destruct (nth_error sets b) as [s|] eqn:Es; [|discriminate].
        cbn in Hl. injection Hl as <-.
        rewrite nth_error_map, Es in Hb. cbn in Hb. injection Hb as <-.
        rewrite <- (ravelF_unravelF ns k Hk) at 1.
        rewrite ER. replace (firstn b (map pts_dim sets)) with (map fst (firstn b dns))
          by (rewrite <- Efst, firstn_map; reflexivity).
        rewrite <- mixed_radix_ravelF.
        rewrite (V b (pts_to_nd s) (pts_dim s) (length (pts_cols s)) r (unravelF ns k) j); auto.
        * unfold set_entry, pts_to_nd, nd_of_columns. cbn [nd_shape nd_at].
          rewrite (nth_error_nth _ _ _ Hlp).
          assert (Hr' : r < length p).
          { rewrite Forall_forall in Hwf. apply nth_error_In in Es. specialize (Hwf s Es).
            unfold wf_pts in Hwf. rewrite Forall_forall in Hwf. rewrite Hwf; auto.
            eapply nth_error_In; eauto. }
          symmetry. now apply nth_error_nth'.
        * rewrite nth_error_map, Es. reflexivity.
        * unfold dns. rewrite nth_error_map, Es. reflexivity. }
  rewrite Hcols. split; [reflexivity|]. split; [auto|]. split; [intros Hc; elim E0; exact Hc|].
  unfold wf_pts; cbn [pts_dim pts_cols]. apply Forall_forall. intros c Hc.
  apply tp_tuples_in in Hc as (p & Hp & ->). clear -Hp Hwf.
  revert p Hp. induction Hwf as [|s sets Hs _ IH]; intros p Hp; inversion Hp; subst; [reflexivity|].
  simpl. rewrite app_length. unfold wf_pts in Hs. rewrite Forall_forall in Hs. rewrite Hs by auto.
  unfold sum_nat; simpl. f_equal. now apply IH.
Qed.
