(** * Laurie's algorithm: mixed moments and the trailing submatrix *)
From Coq Require Import List Arith Bool Reals Lra Lia.
From Verif Require Import Py RSum ModelNd ModelKronrod ProofEig ProofGK ProofGK2.
Import ListNotations.
Local Open Scope R_scope.

(** ** Mixed moments.  [bt] holds the recurrence coefficients of the whole matrix. *)
Section Mixed.
  Context (bt : nat -> R) (n : nat).
  Definition prev (f : nat -> R) (k : nat) : R := match k with O => 0 | S j => f j end.
  Fixpoint mm2 (l : nat) : (nat -> R) * (nat -> R) :=   (* columns l and l - 1 *)
    match l with
    | O => (fun k => if (k =? 0)%nat then bt (n + 1)%nat else 0, fun _ => 0)
    | S l' => let '(f, g) := mm2 l' in (fun k => bt (n + 1 + k)%nat * prev f k + f (S k) - bt l' * g k, f)
    end.
  Definition mm (k l : nat) : R := fst (mm2 l) k.
  Definition mmp (k l : nat) : R := snd (mm2 l) k.
  Lemma mmp_0 k : mmp k 0 = 0. Proof. reflexivity. Qed.
  Lemma mmp_S k l : mmp k (S l) = mm k l.
  Proof. unfold mmp, mm. cbn [mm2]. destruct (mm2 l). reflexivity. Qed.
  Lemma mm_0 k : mm k 0 = if (k =? 0)%nat then bt (n + 1)%nat else 0. Proof. reflexivity. Qed.
  Lemma mm_S k l : mm k (S l) = bt (n + 1 + k)%nat * prev (fun j => mm j l) k + mm (S k) l - bt l * mmp k l.
  Proof. unfold mmp, mm. cbn [mm2]. destruct (mm2 l). reflexivity. Qed.
  Lemma mm_facts l : (forall k, (l < k)%nat -> mm k l = 0) /\ (forall k, (l < k + 1)%nat -> mmp k l = 0)
    /\ (forall k, Nat.odd (k + l) = true -> mm k l = 0) /\ (forall k, Nat.odd (k + l) = false -> mmp k l = 0).
  Proof.
    induction l as [|l (I1 & I2 & I3 & I4)].
    - repeat split; intros k Hk; rewrite ?mmp_0; try easy; rewrite mm_0; destruct k; try lia; try easy.
    - repeat split; intros k Hk; rewrite ?mmp_S.
      + rewrite mm_S, I1, I2 by lia. destruct k as [|k]; cbn [prev]; [lia|]. rewrite I1 by lia. ring.
      + apply I1. lia.
      + rewrite mm_S. rewrite Nat.add_succ_r, Nat.odd_succ, <- Nat.negb_odd in Hk. apply negb_true_iff in Hk. rewrite (I4 k Hk).
        rewrite (I3 (S k)). 2:{ cbn [Nat.add]. rewrite Nat.odd_succ, <- Nat.negb_odd, Hk. reflexivity. }
        destruct k as [|k]; cbn [prev]; [ring|]. rewrite (I3 k); [ring|]. cbn [Nat.add] in Hk. rewrite Nat.odd_succ, <- Nat.negb_odd in Hk. now apply negb_false_iff in Hk.
      + apply I3. rewrite Nat.add_succ_r, Nat.odd_succ, <- Nat.negb_odd in Hk. now apply negb_false_iff in Hk.
  Qed.
  Lemma mm_low k l : (l < k)%nat -> mm k l = 0. Proof. apply mm_facts. Qed.
  Lemma mm_odd k l : Nat.odd (k + l) = true -> mm k l = 0. Proof. apply mm_facts. Qed.
  Lemma mmp_low k l : (l < k + 1)%nat -> mmp k l = 0. Proof. apply mm_facts. Qed.
  Lemma mm_diag k : mm (S k) (S k) = bt (n + 1 + S k)%nat * mm k k.
  Proof. rewrite mm_S, (mm_low (S (S k))), mmp_low by lia. cbn [prev]. ring. Qed.
  (** ** Expansion of one family in the other *)
  Fixpoint mon2 (sh l : nat) (x : R) : R * R :=
    match l with
    | O => (1, 0)
    | S l' => let '(f, g) := mon2 sh l' x in (x * f - bt (sh + l')%nat * g, f)
    end.
  Definition mon (sh l : nat) (x : R) : R := fst (mon2 sh l x).
  Definition monp (sh l : nat) (x : R) : R := snd (mon2 sh l x).
  Lemma mon_S sh l x : mon sh (S l) x = x * mon sh l x - bt (sh + l)%nat * monp sh l x.
  Proof. unfold mon, monp. cbn [mon2]. destruct (mon2 sh l x). reflexivity. Qed.
  Lemma monp_S sh l x : monp sh (S l) x = mon sh l x.
  Proof. unfold mon, monp. cbn [mon2]. destruct (mon2 sh l x). reflexivity. Qed.
  Hypothesis Hbt : forall k, bt (n + 1 + k)%nat <> 0.
  Lemma mm_diag_ne k : mm k k <> 0.
  Proof.
    induction k as [|k IH]; [rewrite mm_0; cbn [Nat.eqb]; rewrite <- (Nat.add_0_r (n + 1)); apply Hbt|]. rewrite mm_diag. now apply Rmult_integral_contrapositive_currified.
  Qed.
  Definition cc (k l : nat) : R := mm k l / mm k k.
  Definition ccp (k l : nat) : R := mmp k l / mm k k.
  Lemma cc_S k l : cc k (S l) = prev (fun j => cc j l) k + bt (n + 1 + S k)%nat * cc (S k) l - bt l * ccp k l.
  Proof.
    unfold cc, ccp. pose proof (mm_diag_ne k) as D0. pose proof (Hbt (S k)) as B1. rewrite mm_S, (mm_diag k).
    destruct k as [|k]; cbn [prev].
    - field. split; assumption.
    - pose proof (mm_diag_ne k) as D1. pose proof (Hbt (S k)) as B0. rewrite (mm_diag k). field. repeat split; assumption.
  Qed.
  Lemma expand x : forall l M, (l < M)%nat -> mon 0 l x = rsum (fun k => cc k l * mon (n + 1) k x) M /\ monp 0 l x = rsum (fun k => ccp k l * mon (n + 1) k x) M.
  Proof.
    induction l as [|l IH]; intros M HM.
    - split.
      + rewrite (rsum_single _ M 0%nat HM).
        * unfold cc. change (mon 0 0 x) with 1. change (mon (n + 1) 0 x) with 1. pose proof (mm_diag_ne 0). field. assumption.
        * intros k _ Hk. unfold cc. rewrite (mm_low k 0) by lia. unfold Rdiv. ring.
      + change (monp 0 0 x) with 0. symmetry. apply rsum_0. intros k _. unfold ccp. rewrite mmp_0. unfold Rdiv. ring.
    - split.
      2:{ rewrite monp_S. destruct (IH M ltac:(lia)) as [I1 _]. rewrite I1. apply rsum_ext. intros k _. unfold cc, ccp. now rewrite mmp_S. }
      rewrite mon_S. cbn [Nat.add]. destruct M as [|M]; [lia|]. destruct (IH M ltac:(lia)) as [I1 _]. destruct (IH (S M) ltac:(lia)) as [I2 I3]. rewrite I1, I3.
      rewrite <- !rsum_scal.
      rewrite (rsum_ext (fun k => x * (cc k l * mon (n + 1) k x)) (fun k => cc k l * mon (n + 1) (S k) x + cc k l * bt (n + 1 + k)%nat * monp (n + 1) k x)).
      2:{ intros k _. rewrite mon_S. ring. }
      rewrite rsum_plus.
      rewrite (rsum_ext (fun k => cc k (S l) * mon (n + 1) k x) (fun k => prev (fun j => cc j l) k * mon (n + 1) k x + (bt (n + 1 + S k)%nat * cc (S k) l * mon (n + 1) k x) - bt l * (ccp k l * mon (n + 1) k x))).
      2:{ intros k _. rewrite cc_S. ring. }
      rewrite rsum_minus, rsum_plus, (rsum_shift (fun k => prev _ k * _)). cbn [prev].
      assert (E : rsum (fun k => cc k l * bt (n + 1 + k)%nat * monp (n + 1) k x) M = rsum (fun k => bt (n + 1 + S k)%nat * cc (S k) l * mon (n + 1) k x) (S M)).
      { destruct M as [|M]; [lia|]. rewrite rsum_shift. change (monp (n + 1) 0 x) with 0. rewrite (rsum_tail _ M (S (S M))).
        - rewrite Rmult_0_r, Rplus_0_l. apply rsum_ext. intros k _. rewrite monp_S. ring.
        - lia.
        - intros k Hk. unfold cc. rewrite (mm_low (S k) l) by lia. unfold Rdiv. ring. }
      rewrite E. ring.
  Qed.
  Lemma expand_top x : (forall k, (k < n)%nat -> mm k n = 0) -> mon 0 n x = mon (n + 1) n x.
  Proof.
    intros H. destruct (expand x n (S n) ltac:(lia)) as [E _]. rewrite E, rsum_S, rsum_0.
    - unfold cc. pose proof (mm_diag_ne n). field. assumption.
    - intros k Hk. unfold cc. rewrite H by easy. unfold Rdiv. ring.
  Qed.
End Mixed.

(** ** First phase: antidiagonals from the corner *)
Section Phase1.
  Context (bt : nat -> R) (n : nat).
  Definition adiag (m k : nat) : R := if (k <? m)%nat then mm bt n k (m - 1 - k) else 0.
  Lemma adiag_rec m k : (k <= m)%nat -> adiag (m + 2) k = adiag (m + 2) (k + 1) + (bt (k + n + 1)%nat * prev (adiag m) k - bt (m - k)%nat * adiag m k).
  Proof.
    intros H. unfold adiag at 1 2 4. destruct (Nat.ltb_spec k (m + 2)); [|lia]. destruct (Nat.ltb_spec (k + 1) (m + 2)); [|lia].
    replace (m + 2 - 1 - k)%nat with (S (m - k)) by lia. replace (m + 2 - 1 - (k + 1))%nat with (m - k)%nat by lia. rewrite mm_S. replace (k + 1)%nat with (S k) by lia. replace (n + 1 + k)%nat with (k + n + 1)%nat by lia.
    assert (E1 : prev (adiag m) k = prev (fun j => mm bt n j (m - k)) k).
    { destruct k as [|k]; cbn [prev]; [reflexivity|]. unfold adiag. destruct (Nat.ltb_spec k m); [|lia]. f_equal; lia. }
    rewrite E1. destruct (Nat.ltb_spec k m) as [L|L].
    - replace (m - k)%nat with (S (m - 1 - k)) at 3 by lia. rewrite mmp_S. ring.
    - replace (m - k)%nat with 0%nat by lia. rewrite mmp_0. ring.
  Qed.
  Lemma adiag_zero m k : (m <= 2 * k)%nat -> adiag m k = 0.
  Proof. intros H. unfold adiag. destruct (Nat.ltb_spec k m); [|easy]. apply mm_low. lia. Qed.
  Definition holds (s f : nat -> R) : Prop := forall i, s i = prev f i.
  Lemma inner1_spec m b : forall c s u, (c <= m + 1)%nat -> (forall k, (k < c)%nat -> b (k + n + 1)%nat = bt (k + n + 1)%nat /\ b (m - k)%nat = bt (m - k)%nat) ->
    u = adiag (m + 2) c -> (forall i, s i = prev (fun i => if (c <=? i)%nat then adiag (m + 2) i else adiag m i) i) ->
    holds (snd (fold_left (laurie_inner1 n m b) (rev (seq 0 c)) (u, s))) (adiag (m + 2)).
  Proof.
    induction c as [|c IH]; intros s u Hc Hb Hu Hs.
    - intros i. cbn [seq rev fold_left snd]. rewrite Hs. now destruct i.
    - rewrite seq_S, rev_app_distr. cbn [rev app fold_left Nat.add]. unfold laurie_inner1 at 2. destruct (Hb c ltac:(lia)) as [B1 B2].
      replace (m - c + 1 - 1)%nat with (m - c)%nat by lia. rewrite B1, B2.
      assert (U : u + (bt (c + n + 1)%nat * s c - bt (m - c)%nat * s (c + 1)%nat) = adiag (m + 2) c).
      { rewrite (adiag_rec m c) by lia. rewrite Hu, !Hs. replace (S c) with (c + 1)%nat by lia. replace (prev (fun i => if (c + 1 <=? i)%nat then adiag (m + 2) i else adiag m i) c) with (prev (adiag m) c).
        - replace (c + 1)%nat with (S c) by lia. cbn [prev]. destruct (Nat.leb_spec (S c) c); [lia|]. reflexivity.
        - destruct c as [|c]; cbn [prev]; [reflexivity|]. destruct (Nat.leb_spec (S c + 1) c); [lia|]. reflexivity. }
      rewrite U. apply IH.
      + lia.
      + intros k Hk. apply Hb. lia.
      + reflexivity.
      + intros i. unfold upd. destruct (Nat.eqb_spec i (c + 1)) as [->|NE].
        * replace (c + 1)%nat with (S c) by lia. cbn [prev]. now rewrite Nat.leb_refl.
        * rewrite Hs. destruct i as [|i]; cbn [prev]; [reflexivity|]. destruct (Nat.leb_spec (S c) i), (Nat.leb_spec c i); try lia; reflexivity.
  Qed.
  Context (b : nat -> R).
  Hypothesis Hb : forall i, (2 * i <= 3 * n + 1)%nat -> b i = bt i.
  Lemma outer1_spec m s t : (m + 2 <= n)%nat -> holds s (adiag m) -> holds t (adiag (m + 1)) ->
    let '(s', t') := laurie_outer1 n b (s, t) m in holds s' (adiag (m + 1)) /\ holds t' (adiag (m + 2)).
  Proof.
    intros Hm Hs Ht. unfold laurie_outer1. set (c := ((m + 1) / 2)%nat). pose proof (Nat.div_mod (m + 1) 2 ltac:(lia)) as D. pose proof (Nat.mod_upper_bound (m + 1) 2 ltac:(lia)) as D2. fold c in D.
    assert (P := inner1_spec m b (c + 1) s 0 ltac:(lia)). destruct (fold_left _ _ _) as [u s']. cbn [snd] in P. split; [easy|]. apply P.
    - intros k Hk. split; apply Hb; lia.
    - symmetry. apply adiag_zero. lia.
    - intros i. rewrite Hs. destruct i as [|i]; cbn [prev]; [reflexivity|]. destruct (Nat.leb_spec (c + 1) i); [|reflexivity]. rewrite !adiag_zero by lia. reflexivity.
  Qed.
  Lemma phase1 : (1 <= n)%nat -> let '(s, t) := fold_left (laurie_outer1 n b) (seq 0 (n - 1)) (fun _ => 0, upd (fun _ => 0) 1 (b (n + 1)%nat)) in
    holds s (adiag (n - 1)) /\ holds t (adiag n).
  Proof.
    intros Hn. assert (P : forall m, (m <= n - 1)%nat -> let '(s, t) := fold_left (laurie_outer1 n b) (seq 0 m) (fun _ => 0, upd (fun _ => 0) 1 (b (n + 1)%nat)) in
      holds s (adiag m) /\ holds t (adiag (m + 1))).
    { induction m as [|m IH]; intros Hm.
      - cbn [seq fold_left]. split; intros [|i]; cbn [prev]; try reflexivity. unfold upd, adiag. cbn [Nat.add]. destruct i as [|i]; cbn [Nat.eqb Nat.ltb Nat.leb]; [|reflexivity].
        cbn [Nat.sub]. rewrite mm_0. cbn [Nat.eqb]. apply Hb. lia.
      - rewrite seq_S, fold_left_app. cbn [fold_left Nat.add]. specialize (IH ltac:(lia)). destruct (fold_left _ _ _) as [s t]. destruct IH as [I1 I2].
        pose proof (outer1_spec m s t ltac:(lia) I1 I2) as O. destruct (laurie_outer1 n b (s, t) m) as [s' t']. replace (S (m + 1))%nat with (m + 2)%nat by lia. replace (S m) with (m + 1)%nat by lia. exact O. }
    specialize (P (n - 1)%nat (le_n _)). destruct (fold_left _ _ _) as [s t]. now replace (n - 1 + 1)%nat with n in P by lia.
  Qed.
End Phase1.

(** ** Second phase *)
Lemma shift_spec (s : nat -> R) : forall c, let s' := fold_left (fun s j => upd s (j + 1) (s j)) (rev (seq 0 c)) s in
  s' 0%nat = s 0%nat /\ (forall i, (i < c)%nat -> s' (S i) = s i) /\ (forall i, (c < i)%nat -> s' i = s i).
Proof.
  intros c. assert (P : forall c s, let s' := fold_left (fun s j => upd s (j + 1) (s j)) (rev (seq 0 c)) s in
    s' 0%nat = s 0%nat /\ (forall i, (i < c)%nat -> s' (S i) = s i) /\ (forall i, (c < i)%nat -> s' i = s i)); [|apply P].
  clear. induction c as [|c IH]; intros s; cbv zeta.
  - cbn [seq rev fold_left]. repeat split; intros; lia.
  - rewrite seq_S, rev_app_distr. cbn [rev app fold_left Nat.add]. destruct (IH (upd s (c + 1) (s c))) as (I1 & I2 & I3). rewrite I1. split; [apply upd_other; lia|]. split.
    + intros i Hi. destruct (Nat.eq_dec i c) as [->|]; [|rewrite I2 by lia; apply upd_other; lia]. rewrite I3 by lia. replace (S c) with (c + 1)%nat by lia. apply upd_same.
    + intros i Hi. rewrite I3 by lia. apply upd_other. lia.
Qed.
Section Phase2.
  Context (n : nat).
  Hypothesis Hn : (1 <= n)%nat.
  Context (bt : nat -> R).
  Definition sg (m i : nat) : R := if (n <? m + i)%nat then mm bt n (m - 1 + i - n) (n - i) else 0.
  Lemma sg_rec m i : (n <= m + 1)%nat -> (1 <= m)%nat -> (1 <= i <= n - 1)%nat ->
    sg (m + 2) (i - 1) = sg (m + 2) i + (bt (m + i - n + n + 1)%nat * sg m i - bt (n - i)%nat * sg m (i + 1)).
  Proof.
    intros Hm H1 Hi. unfold sg. destruct (Nat.ltb_spec n (m + 2 + (i - 1))); [|lia]. destruct (Nat.ltb_spec n (m + 2 + i)); [|lia].
    destruct (Nat.ltb_spec n (m + (i + 1))); [|lia].
    replace (n - (i - 1))%nat with (S (n - i)) by lia. rewrite mm_S. replace (m + 2 - 1 + (i - 1) - n)%nat with (m + i - n)%nat by lia. replace (S (m + i - n)) with (m + 2 - 1 + i - n)%nat by lia.
    replace (mmp bt n (m + i - n) (n - i)) with (mm bt n (m - 1 + (i + 1) - n) (n - (i + 1))).
    2:{ replace (n - i)%nat with (S (n - (i + 1))) by lia. rewrite mmp_S. f_equal; lia. }
    replace (n + 1 + (m + i - n))%nat with (m + i - n + n + 1)%nat by lia.
    replace (prev (fun j => mm bt n j (n - i)) (m + i - n)) with (if (n <? m + i)%nat then mm bt n (m - 1 + i - n) (n - i) else 0); [ring|].
    destruct (Nat.ltb_spec n (m + i)).
    - replace (m + i - n)%nat with (S (m - 1 + i - n)) by lia. reflexivity.
    - replace (m + i - n)%nat with 0%nat by lia. reflexivity.
  Qed.
  (** The values that one pass of the second loop computes *)
  Fixpoint aseq (m i : nat) : R :=
    match i with
    | O => 0
    | S c => aseq m c - (bt (m + S c - n + n + 1)%nat * sg m (S c) - bt (n - S c)%nat * sg m (S c + 1))
    end.
  Lemma aseq_sg m : (n <= m + 1)%nat -> (1 <= m)%nat -> forall i, (i <= n - 1)%nat -> sg (m + 2) i - aseq m i = sg (m + 2) 0.
  Proof.
    intros Hm H1. induction i as [|i IH]; intros Hi; cbn [aseq]; [ring|]. rewrite <- IH by lia.
    pose proof (sg_rec m (S i) Hm H1 ltac:(lia)) as E. replace (S i - 1)%nat with i in E by lia. rewrite E. ring.
  Qed.
  Lemma inner2_spec m b s : (n <= m + 1)%nat -> (m + 3 <= 2 * n)%nat -> forall c, (2 * c + 1 + m <= 2 * n)%nat ->
    (forall i, (i <= m + c - n + n + 1)%nat -> b i = bt i) -> (forall i, (1 <= i <= c + 1)%nat -> (2 * i + m <= 2 * n + 1)%nat -> s i = sg m i) ->
    let '(u, s') := fold_left (laurie_inner2 n m b) (seq (m + 1 - n) c) (0, s) in
    u = aseq m c /\ (forall i, (1 <= i <= c)%nat -> s' i = aseq m i) /\ (forall i, (c < i)%nat -> s' i = s i).
  Proof.
    intros Hm H1. induction c as [|c IH]; intros Hc Hb Hs.
    - cbn [seq fold_left aseq]. repeat split; intros; lia || reflexivity.
    - rewrite seq_S, fold_left_app. specialize (IH ltac:(lia)). destruct (fold_left _ _ _) as [u s']. destruct IH as (I1 & I2 & I3); [intros; apply Hb; lia|intros; apply Hs; lia|].
      cbn [fold_left]. unfold laurie_inner2.
      replace (n - (m - (m + 1 - n + c) + 1))%nat with c by lia. replace (m + 1 - n + c + n + 1)%nat with (m + S c - n + n + 1)%nat by lia. replace (m - (m + 1 - n + c) + 1 - 1)%nat with (n - S c)%nat by lia.
      assert (U : u - (b (m + S c - n + n + 1)%nat * s' (c + 1)%nat - b (n - S c)%nat * s' (c + 2)%nat) = aseq m (S c)).
      { cbn [aseq]. rewrite I1, !I3, !Hb, !Hs by lia. replace (c + 1)%nat with (S c) by lia. replace (c + 2)%nat with (S c + 1)%nat by lia. reflexivity. }
      rewrite U. split; [reflexivity|]. split.
      + intros i Hi. destruct (Nat.eq_dec i (c + 1)) as [->|]; [rewrite upd_same; f_equal; lia|]. rewrite upd_other by easy. apply I2. lia.
      + intros i Hi. rewrite upd_other by lia. apply I3. lia.
  Qed.
  Hypothesis Hbt : forall k, bt (n + 1 + k)%nat <> 0.
  Definition inv2 (m : nat) (st : (nat -> R) * (nat -> R) * (nat -> R)) : Prop :=
    let '(b, s, t) := st in (forall i, (2 * i <= 2 * n + 2 + m)%nat -> b i = bt i)
      /\ (forall i, (1 <= i)%nat -> (2 * i + m <= 2 * n + 1)%nat -> s i = sg m i)
      /\ (forall i, (1 <= i)%nat -> (2 * i + m <= 2 * n)%nat -> t i = sg (m + 1) i).
  Lemma outer2_spec m st : (n <= m + 1)%nat -> (m + 3 <= 2 * n)%nat -> inv2 m st ->
    (forall i, (2 * i <= 2 * n + 3 + m)%nat -> fst (fst (laurie_outer2 n st m)) i = bt i) ->
    inv2 (m + 1) (laurie_outer2 n st m) /\ mm bt n (m + 1 - n) n = 0.
  Proof.
    destruct st as [[b s] t]. intros Hm H3 (Ib & Is & It). unfold laurie_outer2.
    set (j := ((m + 1) / 2)%nat). set (c := ((m - 1) / 2 + 1 - (m + 1 - n))%nat).
    pose proof (Nat.div_mod (m + 1) 2 ltac:(lia)) as D. pose proof (Nat.mod_upper_bound (m + 1) 2 ltac:(lia)) as D2. fold j in D.
    assert (J2 : ((m - 1) / 2 + 1 = j \/ (m = 0 /\ j = 0))%nat).
    { destruct m as [|m]; [right; split; reflexivity|left]. unfold j. replace (S m - 1)%nat with m by lia. replace (S m + 1)%nat with (m + 1 * 2)%nat by lia. rewrite Nat.div_add by lia. lia. }
    assert (M1 : (1 <= m)%nat) by lia. destruct J2 as [J2|J2]; [|lia].
    assert (C : c = (n - (m + 1 - j))%nat) by (unfold c; lia).
    assert (P := inner2_spec m b s Hm H3 c ltac:(lia)). 
    destruct (fold_left (laurie_inner2 n m b) _ _) as [u s']. destruct P as (P1 & P2 & P3); [intros; apply Ib; lia|intros; apply Is; lia|].
    cbn [fst]. intros Hb'.
    assert (Z : sg (m + 2) 0 = mm bt n (m + 1 - n) n).
    { unfold sg. destruct (Nat.ltb_spec n (m + 2 + 0)); [|lia]. f_equal; lia. }
    assert (Z0 : sg (m + 2) 0 = 0).
    { destruct (Nat.eqb_spec (2 * j) m) as [EV|OD].
      - rewrite Z. apply mm_odd. replace (m + 1 - n + n)%nat with (S (2 * j)) by lia. rewrite Nat.odd_succ. apply Nat.even_spec. now exists j.
      - assert (MJ : (m + 1 = 2 * j)%nat) by lia. rewrite <- (aseq_sg m Hm M1 c ltac:(lia)).
        specialize (Hb' (j + n + 1)%nat ltac:(lia)). rewrite upd_same in Hb'. replace (n - (m - j + 2) + 1)%nat with c in Hb' by lia. replace (n - (m - j + 2) + 2)%nat with (c + 1)%nat in Hb' by lia.
        rewrite P2, P3, Is in Hb' by lia.
        assert (S1 : sg m (c + 1) = mm bt n (j - 1) (j - 1)). { unfold sg. destruct (Nat.ltb_spec n (m + (c + 1))); [|lia]. f_equal; lia. }
        assert (S2 : sg (m + 2) c = mm bt n j j). { unfold sg. destruct (Nat.ltb_spec n (m + 2 + c)); [|lia]. f_equal; lia. }
        rewrite S1 in Hb'. rewrite S2. replace j with (S (j - 1)) at 1 2 by lia. rewrite mm_diag. pose proof (mm_diag_ne bt n Hbt (j - 1)) as NE.
        replace (n + 1 + S (j - 1))%nat with (j + n + 1)%nat by lia. rewrite <- Hb'. field. assumption. }
    split; [|now rewrite <- Z].
    unfold inv2. split; [intros i Hi; apply Hb'; lia|]. split; [intros i Hi1 Hi2; apply It; lia|].
    intros i Hi1 Hi2. rewrite P2 by lia. replace (m + 1 + 1)%nat with (m + 2)%nat by lia. pose proof (aseq_sg m Hm M1 i ltac:(lia)) as E. rewrite Z0 in E. lra.
  Qed.
  Lemma outer2_keeps l : forall b s t i, (forall m, In m l -> (2 * i <= 2 * n + 2 + m)%nat) -> fst (fst (fold_left (laurie_outer2 n) l (b, s, t))) i = b i.
  Proof.
    induction l as [|m l IH]; intros b s t i Hl; [reflexivity|]. cbn [fold_left]. unfold laurie_outer2 at 2.
    destruct (fold_left (laurie_inner2 n m b) _ _) as [u s1]. rewrite IH by (intros; apply Hl; now right).
    specialize (Hl m (or_introl eq_refl)). destruct (Nat.eqb_spec (2 * ((m + 1) / 2)) m) as [|NE]; [reflexivity|]. apply upd_other.
    pose proof (Nat.div_mod (m + 1) 2 ltac:(lia)). pose proof (Nat.mod_upper_bound (m + 1) 2 ltac:(lia)). lia.
  Qed.
  Lemma phase2 st : inv2 (n - 1) st -> (forall i, (i <= 2 * n)%nat -> fst (fst (fold_left (laurie_outer2 n) (seq (n - 1) (2 * n - 2 - (n - 1))) st)) i = bt i) ->
    forall k, (k < n)%nat -> mm bt n k n = 0.
  Proof.
    intros I0 Hfin.
    assert (P : forall c, (c <= n - 1)%nat -> inv2 (n - 1 + c) (fold_left (laurie_outer2 n) (seq (n - 1) c) st) /\ forall k, (k < c)%nat -> mm bt n k n = 0).
    { induction c as [|c IH]; intros Hc.
      - cbn [seq fold_left]. rewrite Nat.add_0_r. split; [easy|intros; lia].
      - destruct (IH ltac:(lia)) as [I1 I2]. rewrite seq_S, fold_left_app. cbn [fold_left]. set (st' := fold_left _ (seq (n - 1) c) st) in *.
        destruct (outer2_spec (n - 1 + c) st' ltac:(lia) ltac:(lia) I1) as [O1 O2].
        { intros i Hi. rewrite <- Hfin by lia. replace (2 * n - 2 - (n - 1))%nat with (S c + (n - 1 - S c))%nat by lia. rewrite seq_app, fold_left_app, seq_S, fold_left_app. cbn [fold_left]. fold st'.
          destruct (laurie_outer2 n st' (n - 1 + c)) as [[b s] t]. symmetry. apply outer2_keeps. intros m Hm. apply in_seq in Hm. lia. }
        split; [now replace (n - 1 + S c)%nat with (n - 1 + c + 1)%nat by lia|]. intros k Hk. destruct (Nat.eq_dec k c) as [->|]; [|apply I2; lia]. rewrite <- O2. f_equal; lia. }
    intros k Hk. destruct (Nat.eq_dec k (n - 1)) as [->|].
    - apply mm_odd. replace (n - 1 + n)%nat with (S (2 * (n - 1))) by lia. rewrite Nat.odd_succ. apply Nat.even_spec. now exists (n - 1)%nat.
    - apply (proj2 (P (n - 1)%nat (le_n _))). lia.
  Qed.
End Phase2.

(** ** The coefficients that the algorithm returns *)
Definition laurie_bt (n i : nat) : R := if (i <=? 2 * n)%nat then laurie n i else 1.
Lemma laurie_bt_low n i : (i <= 2 * n)%nat -> laurie_bt n i = laurie n i.
Proof. intros H. unfold laurie_bt. destruct (Nat.leb_spec i (2 * n)); [reflexivity|lia]. Qed.
Theorem laurie_trailing n : (1 <= n)%nat -> (forall i, (n + 1 <= i <= 2 * n)%nat -> laurie n i <> 0) ->
  forall k, (k < n)%nat -> mm (laurie_bt n) n k n = 0.
Proof.
  intros Hn HP. set (bt := laurie_bt n). pose proof (KK_bounds n) as KB.
  assert (BI : forall i, (2 * i <= 3 * n + 1)%nat -> laurie_init n i = bt i).
  { intros i Hi. unfold bt. rewrite laurie_bt_low by lia. symmetry. apply laurie_low; lia. }
  assert (NZ : forall k, bt (n + 1 + k)%nat <> 0).
  { intros k. unfold bt, laurie_bt. destruct (Nat.leb_spec (n + 1 + k) (2 * n)); [apply HP; lia|lra]. }
  pose proof (phase1 bt n (laurie_init n) BI Hn) as P1.
  assert (FIN : forall i, (i <= 2 * n)%nat -> laurie n i = bt i) by (intros; symmetry; now apply laurie_bt_low).
  unfold laurie in FIN. destruct (fold_left (laurie_outer1 n (laurie_init n)) _ _) as [s t]. destruct P1 as [P1 P2].
  set (s' := fold_left _ _ s) in *. destruct (shift_spec s (n / 2 + 1)) as (S0 & S1 & S2). fold s' in S0, S1, S2.
  apply (phase2 n Hn bt NZ (laurie_init n, s', t)).
  - unfold inv2. split; [intros i Hi; apply BI; lia|]. pose proof (Nat.div_mod n 2 ltac:(lia)) as D. pose proof (Nat.mod_upper_bound n 2 ltac:(lia)) as D2. split.
    + intros i H1 H2. destruct i as [|i]; [lia|]. destruct (le_lt_dec (n / 2 + 1) i) as [L|L]; [lia|]. rewrite S1, P1 by lia. unfold sg. destruct i as [|i]; cbn [prev].
      * destruct (Nat.ltb_spec n (n - 1 + 1)); [lia|reflexivity].
      * unfold adiag. destruct (Nat.ltb_spec i (n - 1)), (Nat.ltb_spec n (n - 1 + S (S i))); try lia. f_equal; lia.
    + intros i H1 H2. destruct i as [|i]; [lia|]. rewrite P2. cbn [prev]. unfold adiag, sg. destruct (Nat.ltb_spec i n), (Nat.ltb_spec n (n - 1 + 1 + S i)); try lia. f_equal; lia.
  - intros i Hi. specialize (FIN i Hi). destruct (fold_left (laurie_outer2 n) _ _) as [[b' s1] t1]. exact FIN.
Qed.
