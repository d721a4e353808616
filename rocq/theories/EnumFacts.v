(** * Facts about enumerations, mixed-radix indices and monadic maps (proofs). *)
From Coq Require Import List Arith Bool Lia FinFun Factorial.
From Verif Require Import Py PyToolsModel ModelNd ModelSpaces.
Import ListNotations.

(** ** Lists *)
Lemma nth_error_ext {A} (l1 l2 : list A) :
  length l1 = length l2 ->
  (forall k, k < length l1 -> nth_error l1 k = nth_error l2 k) -> l1 = l2.
Proof.
  revert l2; induction l1 as [|a l1 IH]; destruct l2 as [|b l2]; simpl; try easy.
  intros Hl H. pose proof (H 0 ltac:(lia)) as H0; simpl in H0; injection H0 as ->.
  f_equal. apply IH; [lia|]. intros k Hk. apply (H (S k)). lia.
Qed.

Lemma nth_error_seq a n k : k < n -> nth_error (seq a n) k = Some (a + k).
Proof.
  revert a k; induction n as [|n IH]; intros a k Hk; [lia|].
  destruct k; simpl; [f_equal; lia|]. rewrite IH by lia. f_equal; lia.
Qed.

Lemma flat_map_blocks_length {A} (f : nat -> list A) m a n :
  (forall i, a <= i < a + n -> length (f i) = m) -> length (flat_map f (seq a n)) = n * m.
Proof.
  revert a; induction n as [|n IH]; intros a H; simpl; [reflexivity|].
  rewrite app_length, (H a) by lia. rewrite IH; [lia|]. intros i Hi; apply H; lia.
Qed.

Lemma flat_map_blocks_nth {A} (f : nat -> list A) m a n i j :
  (forall i, a <= i < a + n -> length (f i) = m) -> i < n -> j < m ->
  nth_error (flat_map f (seq a n)) (i * m + j) = nth_error (f (a + i)) j.
Proof.
  revert a i; induction n as [|n IH]; intros a i H Hi Hj; [lia|].
  simpl. pose proof (H a ltac:(lia)) as Ha.
  destruct i as [|i].
  - simpl. rewrite nth_error_app1 by lia. now rewrite Nat.add_0_r.
  - rewrite nth_error_app2 by (rewrite Ha; simpl; lia).
    rewrite Ha. replace (S i * m + j - m) with (i * m + j) by (simpl; lia).
    rewrite IH; try lia.
    + f_equal; f_equal; lia.
    + intros k Hk; apply H; lia.
Qed.

Lemma NoDup_flat_map {A B} (f : A -> list B) (l : list A) :
  NoDup l ->
  (forall a, In a l -> NoDup (f a)) ->
  (forall a b x, In a l -> In b l -> In x (f a) -> In x (f b) -> a = b) ->
  NoDup (flat_map f l).
Proof.
  induction l as [|a l IH]; simpl; intros Hnd Hf Hd; [constructor|].
  inversion Hnd as [|? ? Hn Hnd']; subst.
  assert (Happ : forall (l1 l2 : list B), NoDup l1 -> NoDup l2 ->
             (forall x, In x l1 -> In x l2 -> False) -> NoDup (l1 ++ l2)).
  { induction l1 as [|x l1 IH1]; simpl; intros l2 H1 H2 H; auto.
    inversion H1; subst. constructor.
    - rewrite in_app_iff; intros [?|?]; [auto|]. eapply H; eauto.
    - apply IH1; auto. intros y ? ?; eapply H; eauto. }
  apply Happ.
  - apply Hf; auto.
  - apply IH; auto. intros; eapply Hd; eauto.
  - intros x H1 H2. apply in_flat_map in H2 as (b & Hb & Hx).
    assert (a = b) by (eapply Hd; eauto). subst; auto.
Qed.

Lemma prod_nat_app l1 l2 : prod_nat (l1 ++ l2) = prod_nat l1 * prod_nat l2.
Proof.
  unfold prod_nat; induction l1 as [|a l1 IH]; simpl; [lia|]. rewrite IH; lia.
Qed.
Lemma prod_nat_rev l : prod_nat (rev l) = prod_nat l.
Proof.
  induction l as [|a l IH]; simpl; [reflexivity|].
  rewrite prod_nat_app, IH; unfold prod_nat; simpl; lia.
Qed.
Lemma sum_nat_app l1 l2 : sum_nat (l1 ++ l2) = sum_nat l1 + sum_nat l2.
Proof.
  unfold sum_nat; induction l1 as [|a l1 IH]; simpl; [lia|]. rewrite IH; lia.
Qed.

Lemma Forall2_length {A B} (R : A -> B -> Prop) l1 l2 : Forall2 R l1 l2 -> length l1 = length l2.
Proof. induction 1; simpl; congruence. Qed.

(** ** Mixed-radix indices *)
Definition valid_idx (idx sh : list nat) : Prop := Forall2 lt idx sh.

Lemma valid_idx_length idx sh : valid_idx idx sh -> length idx = length sh.
Proof. apply Forall2_length. Qed.

Lemma ravelF_lt sh idx : valid_idx idx sh -> ravelF sh idx < prod_nat sh.
Proof.
  induction 1 as [|i n idx sh Hi H IH]; [unfold prod_nat; simpl; lia|].
  change (prod_nat (n :: sh)) with (n * prod_nat sh). simpl. nia.
Qed.
Lemma ravelC_lt sh idx : valid_idx idx sh -> ravelC sh idx < prod_nat sh.
Proof.
  induction 1 as [|i n idx sh Hi H IH]; [unfold prod_nat; simpl; lia|].
  change (prod_nat (n :: sh)) with (n * prod_nat sh). simpl.
  pose proof (Nat.mul_le_mono_r (S i) n (prod_nat sh) Hi). lia.
Qed.

Lemma unravelF_valid sh k : k < prod_nat sh -> valid_idx (unravelF sh k) sh.
Proof.
  revert k; induction sh as [|n sh IH]; intros k Hk; simpl; [constructor|].
  unfold prod_nat in Hk; simpl in Hk; fold (prod_nat sh) in Hk.
  assert (n <> 0) by (intros ->; lia).
  constructor; [apply Nat.mod_upper_bound; lia|].
  apply IH. apply Nat.div_lt_upper_bound; lia.
Qed.
Lemma ravelF_unravelF sh k : k < prod_nat sh -> ravelF sh (unravelF sh k) = k.
Proof.
  revert k; induction sh as [|n sh IH]; intros k Hk.
  { unfold prod_nat in Hk; simpl in *; lia. }
  simpl. unfold prod_nat in Hk; simpl in Hk; fold (prod_nat sh) in Hk.
  assert (n <> 0) by (intros ->; lia).
  rewrite IH by (apply Nat.div_lt_upper_bound; lia).
  pose proof (Nat.div_mod k n ltac:(lia)). lia.
Qed.
Lemma unravelF_ravelF sh idx : valid_idx idx sh -> unravelF sh (ravelF sh idx) = idx.
Proof.
  induction 1 as [|i n idx sh Hi H IH]; simpl; [reflexivity|].
  f_equal.
  - rewrite (Nat.mul_comm n), Nat.mod_add by lia. apply Nat.mod_small; lia.
  - rewrite (Nat.mul_comm n), Nat.div_add by lia.
    rewrite Nat.div_small by lia. simpl. exact IH.
Qed.
Lemma unravelC_ravelC sh idx : valid_idx idx sh -> unravelC sh (ravelC sh idx) = idx.
Proof.
  induction 1 as [|i n idx sh Hi H IH]; simpl; [reflexivity|].
  pose proof (ravelC_lt _ _ H) as Hlt.
  f_equal.
  - rewrite Nat.add_comm, Nat.div_add by lia. rewrite Nat.div_small by lia. lia.
  - rewrite Nat.add_comm, Nat.mod_add by lia. rewrite Nat.mod_small by lia. exact IH.
Qed.
Lemma ravelF_inj sh i j : valid_idx i sh -> valid_idx j sh -> ravelF sh i = ravelF sh j -> i = j.
Proof.
  intros Hi Hj E. rewrite <- (unravelF_ravelF sh i Hi), <- (unravelF_ravelF sh j Hj). congruence.
Qed.

Lemma ravelC_app sh1 sh2 i1 i2 : length i1 = length sh1 ->
  ravelC (sh1 ++ sh2) (i1 ++ i2) = ravelC sh1 i1 * prod_nat sh2 + ravelC sh2 i2.
Proof.
  revert i1; induction sh1 as [|n sh1 IH]; destruct i1 as [|i i1]; simpl; try easy.
  intros Hl. rewrite IH by lia. rewrite prod_nat_app. lia.
Qed.
Lemma ravelC_rev sh idx : length idx = length sh -> ravelC (rev sh) (rev idx) = ravelF sh idx.
Proof.
  revert idx; induction sh as [|n sh IH]; destruct idx as [|i idx]; simpl; try easy.
  intros Hl. rewrite ravelC_app by (rewrite !rev_length; lia).
  rewrite IH by lia. unfold prod_nat; simpl. lia.
Qed.

Lemma valid_idx_rev idx sh : valid_idx idx sh -> valid_idx (rev idx) (rev sh).
Proof.
  unfold valid_idx. induction 1; simpl; [constructor|].
  apply Forall2_app; auto.
Qed.

(** ** gnitb *)
Lemma gnitb_length ns : length (gnitb ns) = prod_nat ns.
Proof.
  induction ns as [|n ns IH]; simpl; [reflexivity|].
  rewrite (flat_map_blocks_length _ (prod_nat ns)); [reflexivity|].
  intros; now rewrite map_length.
Qed.
Lemma gnitb_nth ns idx : valid_idx idx ns -> nth_error (gnitb ns) (ravelC ns idx) = Some idx.
Proof.
  induction 1 as [|i n idx ns Hi H IH]; simpl; [reflexivity|].
  rewrite (flat_map_blocks_nth _ (prod_nat ns)); try lia.
  - rewrite nth_error_map, IH. reflexivity.
  - intros; now rewrite map_length, gnitb_length.
  - now apply ravelC_lt.
Qed.

(** The reversed-and-reversed enumeration used throughout modepy: first index
    fastest. *)
Definition enumF (ns : list nat) : list (list nat) := map (unravelF ns) (seq 0 (prod_nat ns)).

Lemma enumF_length ns : length (enumF ns) = prod_nat ns.
Proof. unfold enumF; now rewrite map_length, seq_length. Qed.
Lemma enumF_nth ns k : k < prod_nat ns -> nth_error (enumF ns) k = Some (unravelF ns k).
Proof. intros Hk. unfold enumF. rewrite nth_error_map, nth_error_seq by lia. reflexivity. Qed.

Lemma rev_gnitb_rev ns : map (@rev nat) (gnitb (rev ns)) = enumF ns.
Proof.
  apply nth_error_ext.
  - rewrite map_length, gnitb_length, prod_nat_rev, enumF_length. reflexivity.
  - rewrite map_length, gnitb_length, prod_nat_rev. intros k Hk.
    rewrite enumF_nth by lia.
    pose proof (unravelF_valid ns k Hk) as Hv.
    rewrite <- (ravelF_unravelF ns k Hk) at 1.
    rewrite <- ravelC_rev by (now apply valid_idx_length).
    rewrite nth_error_map, gnitb_nth by (now apply valid_idx_rev).
    simpl. now rewrite rev_involutive.
Qed.
Lemma rev_gnitb_maprev {A} (f : A -> nat) (l : list A) :
  map (@rev nat) (gnitb (map f (rev l))) = enumF (map f l).
Proof. rewrite map_rev. apply rev_gnitb_rev. Qed.

Lemma enumF_in ns idx : In idx (enumF ns) <-> valid_idx idx ns.
Proof.
  unfold enumF; rewrite in_map_iff; split.
  - intros (k & <- & Hk). apply in_seq in Hk. apply unravelF_valid; lia.
  - intros H. exists (ravelF ns idx). rewrite unravelF_ravelF by auto.
    split; [reflexivity|]. apply in_seq. pose proof (ravelF_lt _ _ H); lia.
Qed.
Lemma enumF_NoDup ns : NoDup (enumF ns).
Proof.
  unfold enumF. apply NoDup_nth_error. rewrite map_length, seq_length. intros i j Hi E.
  assert (Hj : j < prod_nat ns).
  { destruct (Nat.lt_ge_cases j (prod_nat ns)) as [|Hge]; auto.
    rewrite (proj2 (nth_error_None _ j)) in E by (rewrite map_length, seq_length; lia).
    rewrite nth_error_map, nth_error_seq in E by lia. discriminate. }
  rewrite !nth_error_map, !nth_error_seq in E by lia. simpl in E. injection E as E.
  rewrite <- (ravelF_unravelF ns i Hi), <- (ravelF_unravelF ns j Hj). congruence.
Qed.

(** ** gnitsam *)
Lemma sum_nat_snoc l i : sum_nat (l ++ [i]) = sum_nat l + i.
Proof. rewrite sum_nat_app. unfold sum_nat at 2; simpl; lia. Qed.

Lemma gnitsam_in len n t : In t (gnitsam n len) <-> length t = len /\ sum_nat t <= n.
Proof.
  revert n t; induction len as [|len IH]; intros n t; simpl.
  - split.
    + intros [<-|[]]; unfold sum_nat; simpl; lia.
    + intros [Hl _]. destruct t; [auto|simpl in Hl; lia].
  - rewrite in_flat_map. split.
    + intros (i & Hi & Ht). apply in_seq in Hi. apply in_map_iff in Ht as (r & <- & Hr).
      apply IH in Hr as [Hl Hs]. rewrite app_length, sum_nat_snoc; simpl; lia.
    + intros [Hl Hs]. destruct (exists_last (l := t)) as (r & i & ->);
        [intros ->; simpl in Hl; lia|].
      rewrite app_length in Hl; simpl in Hl. rewrite sum_nat_snoc in Hs.
      exists i; split; [apply in_seq; lia|].
      apply in_map_iff. exists r; split; auto. apply IH; split; lia.
Qed.

Lemma gnitsam_NoDup len n : NoDup (gnitsam n len).
Proof.
  revert n; induction len as [|len IH]; intros n; simpl.
  - constructor; [simpl; tauto|constructor].
  - apply NoDup_flat_map.
    + apply seq_NoDup.
    + intros i _. apply FinFun.Injective_map_NoDup; [|apply IH].
      intros a b E. now apply app_inj_tail in E as [-> _].
    + intros i j t _ _ Hi Hj. apply in_map_iff in Hi as (a & <- & _).
      apply in_map_iff in Hj as (b & E & _). now apply app_inj_tail in E as [_ ->].
Qed.

Lemma comb_0_r n : comb n 0 = 1.
Proof. destruct n; reflexivity. Qed.
Lemma comb_lt n k : n < k -> comb n k = 0.
Proof.
  revert k; induction n as [|n IH]; intros [|k] H; simpl; try lia.
  rewrite !IH by lia. lia.
Qed.
Lemma comb_diag n : comb n n = 1.
Proof. induction n as [|n IH]; simpl; [reflexivity|]. rewrite IH, comb_lt; lia. Qed.
Lemma comb_fact n k : k <= n -> comb n k * (fact k * fact (n - k)) = fact n.
Proof.
  revert k; induction n as [|n IH]; intros [|k] H; try lia; simpl (comb _ _).
  - simpl; lia.
  - rewrite Nat.sub_0_r. change (fact 0) with 1. lia.
  - destruct (Nat.eq_dec k n) as [->|Hk].
    + rewrite comb_diag, (comb_lt n (S n)) by lia.
      replace (S n - S n) with 0 by lia. change (fact 0) with 1. lia.
    + pose proof (IH k ltac:(lia)) as H1. pose proof (IH (S k) ltac:(lia)) as H2.
      replace (S n - S k) with (n - k) by lia.
      replace (n - k) with (S (n - S k)) in * by lia.
      change (fact (S n)) with (S n * fact n). change (fact (S k)) with (S k * fact k) in *. change (fact (S (n - S k))) with (S (n - S k) * fact (n - S k)) in *.
      set (c1 := comb n k) in *. set (c2 := comb n (S k)) in *.
      set (fk := fact k) in *. set (fm := fact (n - S k)) in *. set (fn := fact n) in *.
      replace (S n * fn) with (S k * fn + S (n - S k) * fn) by nia.
      rewrite <- H1 at 1. rewrite <- H2. ring.
Qed.

(** Hockey stick. *)
Lemma comb_S n k : comb (S n) (S k) = comb n k + comb n (S k).
Proof. reflexivity. Qed.

Lemma length_flat_map_sum {A B} (f : A -> list B) (l : list A) :
  length (flat_map f l) = sum_nat (map (fun a => length (f a)) l).
Proof.
  induction l as [|a l IH]; simpl; [reflexivity|].
  rewrite app_length, IH. reflexivity.
Qed.

Lemma hockey len n :
  sum_nat (map (fun i => comb (n - i + len) len) (seq 0 (n + 1))) = comb (n + S len) (S len).
Proof.
  induction n as [|n IH].
  - change (seq 0 (0 + 1)) with [0]. unfold sum_nat. cbn [map fold_right].
    replace (0 - 0 + len) with len by lia. replace (0 + S len) with (S len) by lia.
    rewrite !comb_diag. lia.
  - replace (S n + 1) with (S (n + 1)) by lia. cbn [seq map].
    rewrite <- seq_shift, map_map. unfold sum_nat in *; cbn [fold_right].
    rewrite (map_ext (fun x => comb (S n - S x + len) len) (fun i => comb (n - i + len) len))
      by (intros; reflexivity).
    rewrite IH. replace (S n + S len) with (S (n + S len)) by lia.
    rewrite comb_S. f_equal. f_equal. lia.
Qed.

Lemma gnitsam_length len n : length (gnitsam n len) = comb (n + len) len.
Proof.
  revert n; induction len as [|len IH]; intros n; simpl (gnitsam _ _).
  - rewrite comb_0_r. reflexivity.
  - rewrite length_flat_map_sum.
    rewrite (map_ext _ (fun i => comb (n - i + len) len))
      by (intros i; now rewrite map_length, IH).
    apply hockey.
Qed.

(** ** mapM / zipM *)
Lemma mapM_Ok {A B} (f : A -> res B) (g : A -> B) l :
  (forall a, In a l -> f a = Ok (g a)) -> mapM f l = Ok (map g l).
Proof.
  induction l as [|a l IH]; simpl; intros H; [reflexivity|].
  rewrite H by auto. simpl. rewrite IH by auto. reflexivity.
Qed.
Lemma mapM_Ok_Forall2 {A B} (f : A -> res B) l ys :
  mapM f l = Ok ys <-> Forall2 (fun a y => f a = Ok y) l ys.
Proof.
  revert ys; induction l as [|a l IH]; intros ys; simpl.
  - split; intros H; [injection H as <-; constructor|inversion H; reflexivity].
  - split.
    + destruct (f a) as [y|] eqn:E; simpl; [|discriminate].
      destruct (mapM f l) as [ys'|] eqn:E'; simpl; [|discriminate].
      intros H; injection H as <-. constructor; auto. now apply IH.
    + intros H; inversion H as [|? y ? ys' Hy Hys]; subst. rewrite Hy; simpl.
      apply IH in Hys. now rewrite Hys.
Qed.
Lemma mapM_length {A B} (f : A -> res B) l ys : mapM f l = Ok ys -> length ys = length l.
Proof. intros H; apply mapM_Ok_Forall2, Forall2_length in H; auto. Qed.

Lemma zipM_Ok_cons {A B C} (f : A -> B -> res C) x xs y ys z zs :
  f x y = Ok z -> zipM f xs ys = Ok zs -> zipM f (x :: xs) (y :: ys) = Ok (z :: zs).
Proof. intros H1 H2; simpl; now rewrite H1; simpl; rewrite H2. Qed.

Lemma zipM_getitem {A} (tss : list (list A)) idx :
  valid_idx idx (map (@length _) tss) ->
  exists parts, zipM (fun ts j => getitem ts j) tss idx = Ok parts
                /\ Forall2 (fun '(ts, j) p => nth_error ts j = Some p) (combine tss idx) parts.
Proof.
  revert idx; induction tss as [|ts tss IH]; intros idx H; inversion H; subst; simpl.
  - exists []; split; constructor.
  - match goal with H : Forall2 lt _ _ |- _ => destruct (IH _ H) as (parts & E & F) end.
    destruct (nth_error ts x) as [p|] eqn:Ep.
    + exists (p :: parts). unfold getitem at 1; rewrite Ep; simpl. rewrite E; simpl.
      split; [reflexivity|constructor; auto].
    + apply nth_error_None in Ep. lia.
Qed.
