(** * diff_matrix_permutation (C30) *)
From Coquelicot Require Import Coquelicot.
From Coq Require Import List Arith Bool ZArith Reals Lra Lia Permutation.
From Verif Require Import Py PyToolsModel RSum RField ModelLinAlg ProofLinAlg ModelShapes ModelModes ModelBasis ModelQuad
  ModelMatrices EnumFacts SpecPartial SpecSpan ProofMonomial ProofMatrices ProofMatrices2.
Import ListNotations.
Local Open Scope nat_scope.

(** The list with the entries 0 and k exchanged. *)
Definition exch_idx (k i : nat) : nat := if (i =? 0)%nat then k else if (i =? k)%nat then 0%nat else i.
Definition exch {A} (d : A) (k : nat) (l : list A) : list A :=
  map (fun i => nth (exch_idx k i) l d) (seq 0 (length l)).

Lemma exch_idx_lt k i n : (k < n)%nat -> (i < n)%nat -> (exch_idx k i < n)%nat.
Proof. intros. unfold exch_idx. destruct (i =? 0)%nat; [easy|]. destruct (i =? k)%nat; lia. Qed.
Lemma exch_idx_inv k i : exch_idx k (exch_idx k i) = i.
Proof.
  unfold exch_idx. destruct (Nat.eqb_spec i 0) as [->|].
  - destruct (Nat.eqb_spec k 0) as [->|]; [reflexivity|]. now rewrite Nat.eqb_refl.
  - destruct (Nat.eqb_spec i k) as [->|]; [now rewrite Nat.eqb_refl|].
    destruct (Nat.eqb_spec i 0); [congruence|]. destruct (Nat.eqb_spec i k); congruence.
Qed.
Lemma exch_length {A} (d : A) k l : length (exch d k l) = length l.
Proof. unfold exch. now rewrite map_length, seq_length. Qed.
Lemma exch_nth {A} (d : A) k l i : (i < length l)%nat -> nth i (exch d k l) d = nth (exch_idx k i) l d.
Proof.
  intros H. unfold exch. rewrite (nth_indep _ d (nth (exch_idx k 0) l d)) by (rewrite map_length, seq_length; easy).
  rewrite (map_nth (fun i => nth (exch_idx k i) l d)), seq_nth by easy. reflexivity.
Qed.
Lemma exch_exch {A} (d : A) k l : (k < length l)%nat -> exch d k (exch d k l) = l.
Proof.
  intros H. apply (nth_ext _ _ d d); [now rewrite !exch_length|].
  intros i Hi. rewrite !exch_length in Hi. rewrite exch_nth by (now rewrite exch_length).
  rewrite exch_nth by (now apply exch_idx_lt). now rewrite exch_idx_inv.
Qed.

Lemma set_nth_length {A} i (v : A) l : (i < length l)%nat -> length (set_nth i v l) = length l.
Proof. intros H. unfold set_nth. rewrite app_length, firstn_length. cbn [length]. rewrite skipn_length. lia. Qed.
Lemma nth_firstn' {A} (l : list A) i j d : (j < i)%nat -> nth j (firstn i l) d = nth j l d.
Proof.
  revert i j. induction l as [|a l IH]; intros [|i] j H; try lia; [reflexivity|].
  destruct j as [|j]; cbn [firstn nth]; [reflexivity|]. apply IH. lia.
Qed.
Lemma nth_skipn' {A} (l : list A) i j d : nth j (skipn i l) d = nth (i + j) l d.
Proof.
  revert i. induction l as [|a l IH]; intros [|i]; cbn [skipn]; try reflexivity.
  - destruct j; reflexivity.
  - rewrite IH. reflexivity.
Qed.
Lemma set_nth_nth {A} i (v : A) l j d : (i < length l)%nat -> (j < length l)%nat ->
  nth j (set_nth i v l) d = if (j =? i)%nat then v else nth j l d.
Proof.
  intros Hi Hj. unfold set_nth. destruct (Nat.eqb_spec j i) as [->|Hne].
  - rewrite app_nth2 by (rewrite firstn_length; lia). rewrite firstn_length, Nat.min_l by lia.
    now rewrite Nat.sub_diag.
  - destruct (Nat.lt_ge_cases j i).
    + rewrite app_nth1 by (rewrite firstn_length; lia). now apply nth_firstn'.
    + rewrite app_nth2 by (rewrite firstn_length; lia). rewrite firstn_length, Nat.min_l by lia.
      replace (j - i)%nat with (S (j - i - 1)) by lia. cbn [nth]. rewrite nth_skipn'. f_equal. lia.
Qed.
Lemma swap_entries_exch k nt : (0 < k < length nt)%nat -> swap_entries k nt = Ok (exch 0%nat k nt).
Proof.
  intros H. unfold swap_entries, getitem.
  rewrite (nth_error_nth' nt 0%nat (n := 0)) by lia. cbn [bind].
  rewrite (nth_error_nth' nt 0%nat (n := k)) by lia. cbn [bind]. f_equal.
  apply (nth_ext _ _ 0%nat 0%nat).
  { rewrite !set_nth_length, exch_length; try lia. rewrite set_nth_length; lia. }
  intros i Hi. rewrite !set_nth_length in Hi; try lia. 2:{ rewrite set_nth_length; lia. }
  rewrite set_nth_nth by (rewrite set_nth_length; lia). rewrite exch_nth by lia. unfold exch_idx.
  destruct (Nat.eqb_spec i k) as [->|].
  - destruct (Nat.eqb_spec k 0); [lia|reflexivity].
  - rewrite set_nth_nth by lia. now destruct (i =? 0)%nat.
Qed.

Lemma dict_index_nodup keys : NoDup keys -> forall i, (i < length keys)%nat ->
  dict_index keys (nth i keys []) = Ok i.
Proof.
  intros H. unfold dict_index.
  assert (G : forall start i, (i < length keys)%nat -> dict_index_from start keys (nth i keys []) = Some (start + i)%nat).
  { induction H as [|key keys Hnin H IH]; intros start i Hi; [cbn in Hi; lia|].
    cbn [dict_index_from]. destruct i as [|i]; cbn [nth].
    - assert (E : dict_index_from (S start) keys key = None).
      { clear -Hnin. revert start. induction keys as [|k keys IH]; intros start; [reflexivity|].
        cbn [dict_index_from]. rewrite IH by (intros X; apply Hnin; now right).
        destruct (tuple_eqb k key) eqn:E; [|reflexivity]. apply tuple_eqb_eq in E. subst. exfalso; apply Hnin; now left. }
      rewrite E, tuple_eqb_refl. f_equal; lia.
    - rewrite IH by (cbn in Hi; lia). f_equal; lia. }
  intros i Hi. now rewrite G.
Qed.

Lemma perm_ok nts k dim : (k < dim)%nat -> Forall (fun t => length t = dim) nts -> NoDup nts ->
  (forall t, In t nts -> In (exch 0%nat k t) nts) ->
  exists perm, diff_matrix_permutation nts k = Ok perm /\ length perm = length nts
    /\ (forall i, (i < length nts)%nat -> (nth i perm 0 < length nts)%nat
          /\ nth (nth i perm 0) nts [] = exch 0%nat k (nth i nts [])
          /\ nth (nth i perm 0) perm 0 = i)%nat
    /\ Permutation perm (seq 0 (length nts)).
Proof.
  intros Hk HL HN HC.
  assert (HX : forall i, (i < length nts)%nat -> exists i', (i' < length nts)%nat /\ nth i' nts [] = exch 0%nat k (nth i nts [])).
  { intros i Hi. destruct (In_nth nts (exch 0%nat k (nth i nts [])) []) as (i' & Hi' & E).
    - apply HC. now apply nth_In.
    - eauto. }
  assert (HE : exists perm, diff_matrix_permutation nts k = Ok perm /\ length perm = length nts
     /\ forall i, (i < length nts)%nat -> (nth i perm 0 < length nts)%nat
           /\ nth (nth i perm 0) nts [] = exch 0%nat k (nth i nts [])).
  { unfold diff_matrix_permutation. destruct (Nat.eqb_spec k 0) as [->|Hk0].
    - exists (seq 0 (length nts)). split; [reflexivity|]. split; [apply seq_length|].
      intros i Hi. rewrite seq_nth by easy. cbn [Nat.add]. split; [easy|].
      apply (nth_ext _ _ 0%nat 0%nat); [now rewrite exch_length|]. intros j Hj.
      rewrite exch_nth by easy. unfold exch_idx. destruct (Nat.eqb_spec j 0) as [->|]; reflexivity.
    - assert (HF : forall t, In t nts -> exists i', (i' < length nts)%nat /\ nth i' nts [] = exch 0%nat k t
         /\ (let* swapped := swap_entries k t in dict_index nts swapped) = Ok i').
      { intros t Ht. destruct (In_nth nts (exch 0%nat k t) [] (HC t Ht)) as (i' & Hi' & E). exists i'.
        split; [easy|]. split; [easy|].
        rewrite swap_entries_exch by (rewrite Forall_forall in HL; rewrite (HL t Ht); lia). cbn [bind].
        rewrite <- E. now apply dict_index_nodup. }
      clear -HF. assert (G : forall l, (forall t, In t l -> In t nts) ->
        exists perm, mapM (fun nt => let* swapped := swap_entries k nt in dict_index nts swapped) l = Ok perm
          /\ length perm = length l
          /\ forall i, (i < length l)%nat -> (nth i perm 0 < length nts)%nat
             /\ nth (nth i perm 0) nts [] = exch 0%nat k (nth i l [])).
      { induction l as [|t l IH]; intros Hl.
        - exists []. split; [reflexivity|]. split; [reflexivity|]. cbn; lia.
        - destruct (HF t (Hl t (or_introl eq_refl))) as (i' & H1 & H2 & H3).
          destruct IH as (perm & E & L & HP); [intros; apply Hl; now right|].
          exists (i' :: perm). cbn [mapM]. rewrite H3. cbn [bind]. rewrite E. split; [reflexivity|].
          split; [cbn; congruence|]. intros [|i] Hi; cbn [nth]; [easy|]. apply HP. cbn in Hi; lia. }
      apply G. auto. }
  destruct HE as (perm & E & L & HP). exists perm. split; [easy|]. split; [easy|].
  assert (HI : forall i, (i < length nts)%nat -> nth (nth i perm 0%nat) perm 0%nat = i).
  { intros i Hi. destruct (HP i Hi) as [P1 P2]. destruct (HP _ P1) as [P3 P4].
    rewrite P2, exch_exch in P4.
    - apply (proj1 (NoDup_nth nts []) HN); easy.
    - rewrite Forall_forall in HL. rewrite (HL (nth i nts [])); [easy|now apply nth_In]. }
  split.
  - intros i Hi. destruct (HP i Hi). auto.
  - apply NoDup_Permutation_bis.
    + apply (NoDup_nth perm 0%nat). intros i j Hi Hj Eij. rewrite L in Hi, Hj.
      rewrite <- (HI i Hi), <- (HI j Hj). now rewrite Eij.
    + rewrite seq_length, L. lia.
    + intros p Hp. destruct (In_nth perm p 0%nat Hp) as (i & Hi & <-). apply in_seq.
      rewrite L in Hi. destruct (HP i Hi). lia.
Qed.

Local Open Scope R_scope.
(** partial derivatives of a function of the exchanged point *)
Lemma exch_upd k x j t : (k < length x)%nat -> (j < length x)%nat ->
  exch 0 k (upd x j t) = upd (exch 0 k x) (exch_idx k j) t.
Proof.
  intros Hk Hj.
  assert (NU : forall (x : list R) j t i, (i < length x)%nat -> nth i (upd x j t) 0 = if (i =? j)%nat then t else nth i x 0).
  { clear. induction x as [|a x IH]; intros j t i Hi; [cbn in Hi; lia|].
    destruct j as [|j], i as [|i]; cbn [upd nth Nat.eqb]; try reflexivity. apply IH. cbn in Hi; lia. }
  apply (nth_ext _ _ 0 0); [now rewrite upd_length, !exch_length, upd_length|].
  intros i Hi. rewrite exch_length, upd_length in Hi.
  rewrite exch_nth by (now rewrite upd_length). rewrite NU by (now apply exch_idx_lt).
  rewrite NU by (now rewrite exch_length). rewrite exch_nth by easy.
  destruct (Nat.eqb_spec (exch_idx k i) j) as [<-|Hne].
  - now rewrite exch_idx_inv, Nat.eqb_refl.
  - destruct (Nat.eqb_spec i (exch_idx k j)) as [->|]; [|reflexivity]. rewrite exch_idx_inv in Hne. easy.
Qed.
Lemma has_partials_exch f k x g : (k < length x)%nat -> has_partials f (exch 0 k x) g ->
  has_partials (fun y => f (exch 0 k y)) x (exch 0 k g).
Proof.
  intros Hk [HL HD]. rewrite exch_length in HL, HD. split; [now rewrite exch_length|].
  intros j Hj. rewrite exch_nth by lia.
  apply (is_derive_ext (fun t => f (upd (exch 0 k x) (exch_idx k j) t))).
  - intros t. now rewrite exch_upd.
  - replace (nth j x 0) with (nth (exch_idx k j) (exch 0 k x) 0).
    + apply HD. now apply exch_idx_lt.
    + rewrite exch_nth by (now apply exch_idx_lt). now rewrite exch_idx_inv.
Qed.
