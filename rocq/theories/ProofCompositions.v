(** * The tuples enumerated by the Grundmann-Moeller rule: every tuple of
    nonnegative integers with the given sum, once *)
From Coq Require Import List Arith Bool Lia Permutation Sorted.
From Verif Require Import Py PyToolsModel ModelShapes ModelSpaces EnumFacts SpecIndex.
Import ListNotations.

Lemma NoDup_app {A} (l1 l2 : list A) : NoDup l1 -> NoDup l2 -> (forall x, In x l1 -> ~ In x l2) -> NoDup (l1 ++ l2).
Proof.
  intros H1 H2 H. induction H1 as [|x l1 Hx H1 IH]; cbn [app]; [easy|].
  constructor; [rewrite in_app_iff; intros [K|K]; [easy|]; apply (H x); [now left|easy]|].
  apply IH. intros y Hy. apply H. now right.
Qed.

Definition dec (t : list nat) : Prop := StronglySorted (fun a b => b <= a) t.
Lemma dec_exists l : exists t, Permutation l t /\ dec t.
Proof.
  assert (I : forall x t, dec t -> exists t', Permutation (x :: t) t' /\ dec t').
  { intros x t H. induction H as [|y t Ht IH Hy].
    - exists [x]. split; [reflexivity|]. repeat constructor.
    - destruct (Nat.le_gt_cases y x) as [L|L].
      + exists (x :: y :: t). split; [reflexivity|]. constructor; [constructor; auto|]. constructor; [easy|].
        eapply Forall_impl; [|exact Hy]. cbv beta. intros; lia.
      + destruct IH as (t' & P & S). exists (y :: t'). split; [rewrite perm_swap; now constructor|].
        constructor; [easy|]. eapply Permutation_Forall; [exact P|]. constructor; [lia|easy]. }
  induction l as [|x l (t & P & S)]; [exists []; split; constructor|].
  destruct (I x t S) as (t' & P' & S'). exists t'. split; [|easy]. rewrite <- P'. now constructor.
Qed.
Lemma dec_unique t t' : dec t -> dec t' -> Permutation t t' -> t = t'.
Proof.
  intros H; revert t'. induction H as [|x t Ht IH Hx]; intros t' H' P.
  - symmetry. now apply Permutation_nil.
  - destruct t' as [|y t']; [apply Permutation_sym, Permutation_nil in P; discriminate|].
    inversion H' as [|? ? Ht' Hy]; subst.
    assert (x = y).
    { assert (In x (y :: t')) as I1 by (eapply Permutation_in; [exact P|now left]).
      assert (In y (x :: t)) as I2 by (eapply Permutation_in; [symmetry; exact P|now left]).
      rewrite Forall_forall in Hx, Hy.
      destruct I1 as [->|I1]; [reflexivity|]. destruct I2 as [->|I2]; [reflexivity|].
      specialize (Hx _ I2). specialize (Hy _ I1). lia. }
    subst y. f_equal. apply IH; [easy|]. now apply Permutation_cons_inv in P.
Qed.

Lemma gdnts_in len : forall n maxv t, In t (gdnts (S len) n maxv) <->
  length t = S len /\ total t = n /\ dec t /\ (forall m x, maxv = Some m -> In x t -> x <= m).
Proof.
  induction len as [|len IH]; intros n maxv t.
  - cbn [gdnts]. split.
    + intros H. assert (E : t = [n] /\ forall m, maxv = Some m -> n <= m).
      { destruct maxv as [m|].
        - destruct (Nat.leb_spec n m); [|easy]. destruct H as [<-|[]]. split; [reflexivity|]. intros ? E; injection E as <-; easy.
        - destruct H as [<-|[]]. now split. }
      destruct E as [-> E]. split; [reflexivity|]. split; [unfold total; cbn; lia|]. split; [repeat constructor|].
      intros m x Em [<-|[]]. now apply E.
    + intros (H1 & H2 & _ & H4). destruct t as [|a [|]]; try discriminate. unfold total in H2. cbn in H2. assert (a = n) by lia. subst a.
      destruct maxv as [m|]; [|now left]. destruct (Nat.leb_spec n m); [now left|]. specialize (H4 m n eq_refl (or_introl eq_refl)). lia.
  - change (gdnts (S (S len)) n maxv) with
      (flat_map (fun i => map (fun remainder => i :: remainder) (gdnts (S len) (n - i) (Some i)))
         (seq 0 (match maxv with None => n | Some m => if n <? m then n else m end + 1))).
    rewrite in_flat_map. split.
    + intros (i & Hi & Ht). apply in_seq in Hi. apply in_map_iff in Ht. destruct Ht as (r & <- & Hr).
      apply IH in Hr. destruct Hr as (H1 & H2 & H3 & H4).
      assert (i <= n /\ forall m, maxv = Some m -> i <= m) as [Hin Him].
      { destruct maxv as [m|]; [|split; [lia|discriminate]]. destruct (Nat.ltb_spec n m); (split; [lia|intros ? E; injection E as <-; lia]). }
      split; [cbn; lia|]. split; [unfold total in *; cbn [fold_right]; lia|]. split.
      * constructor; [easy|]. apply Forall_forall. intros x Hx. now apply (H4 i).
      * intros m x Em [<-|Hx]; [now apply Him|]. specialize (H4 i x eq_refl Hx). specialize (Him m Em). lia.
    + intros (H1 & H2 & H3 & H4). destruct t as [|i r]; [discriminate|]. inversion H3 as [|? ? S F]; subst.
      exists i. split.
      * apply in_seq. assert (i <= total (i :: r)) by (unfold total; cbn; lia).
        destruct maxv as [m|]; [|lia]. specialize (H4 m i eq_refl (or_introl eq_refl)).
        destruct (Nat.ltb_spec (total (i :: r)) m); lia.
      * apply in_map_iff. exists r. split; [reflexivity|]. apply IH. split; [cbn in H1; lia|]. split; [unfold total; cbn [fold_right]; lia|].
        split; [easy|]. intros m x Em Hx. injection Em as <-. rewrite Forall_forall in F. now apply F.
Qed.
Lemma gdnts_NoDup len : forall n maxv, NoDup (gdnts (S len) n maxv).
Proof.
  induction len as [|len IH]; intros n maxv.
  - cbn [gdnts]. destruct maxv as [m|]; [destruct (n <=? m)|]; repeat constructor; easy.
  - change (gdnts (S (S len)) n maxv) with
      (flat_map (fun i => map (fun remainder => i :: remainder) (gdnts (S len) (n - i) (Some i)))
         (seq 0 (match maxv with None => n | Some m => if n <? m then n else m end + 1))).
    generalize (match maxv with None => n | Some m => if n <? m then n else m end + 1). intros N. generalize 0 at 1. intros st.
    revert st. induction N as [|N IHN]; intros st; cbn [seq flat_map]; [constructor|].
    apply NoDup_app.
    + apply FinFun.Injective_map_NoDup; [|apply IH]. intros u v E. now injection E.
    + apply IHN.
    + intros t Ht Ht'. apply in_map_iff in Ht. destruct Ht as (r & <- & _). apply in_flat_map in Ht'.
      destruct Ht' as (j & Hj & Hr). apply in_seq in Hj. apply in_map_iff in Hr. destruct Hr as (r' & E & _). injection E as E _. lia.
Qed.

Lemma insertions_in {A} (x : A) perm p : In p (insertions x perm) -> Permutation (x :: perm) p.
Proof.
  unfold insertions. intros H. apply in_map_iff in H. destruct H as (i & <- & _).
  rewrite <- (firstn_skipn i perm) at 1. apply Permutation_middle.
Qed.
Lemma insertions_all {A} (x : A) l1 l2 : In (l1 ++ x :: l2) (insertions x (l1 ++ l2)).
Proof.
  unfold insertions. apply in_map_iff. exists (length l1). split.
  - rewrite firstn_app, Nat.sub_diag, firstn_all, firstn_O, app_nil_r, skipn_app, Nat.sub_diag, skipn_all. reflexivity.
  - apply in_seq. rewrite app_length. lia.
Qed.
Lemma gen_permutations_in {A} (l p : list A) : In p (gen_permutations l) <-> Permutation l p.
Proof.
  revert p. induction l as [|x l IH]; intros p.
  - cbn. split; [intros [<-|[]]; constructor|]. intros H. apply Permutation_nil in H. now left.
  - destruct l as [|y l].
    + cbn. split; [intros [<-|[]]; reflexivity|]. intros H. apply Permutation_length_1_inv in H. now left.
    + change (gen_permutations (x :: y :: l)) with (flat_map (insertions x) (gen_permutations (y :: l))).
      rewrite in_flat_map. split.
      * intros (q & Hq & Hp). apply IH in Hq. apply insertions_in in Hp. rewrite <- Hp. now constructor.
      * intros HP. assert (Hx : In x p) by (eapply Permutation_in; [exact HP|now left]).
        apply in_split in Hx. destruct Hx as (l1 & l2 & ->). apply Permutation_cons_app_inv in HP.
        exists (l1 ++ l2). split; [now apply IH|]. apply insertions_all.
Qed.
Lemma unique_from_spec had perms : NoDup (unique_from had perms)
  /\ forall p, In p (unique_from had perms) <-> In p perms /\ ~ In p had.
Proof.
  revert had. induction perms as [|q perms IH]; intros had; cbn [unique_from].
  - split; [constructor|]. cbn. tauto.
  - destruct (existsb (tuple_eqb q) had) eqn:E.
    + destruct (IH had) as [H1 H2]. split; [easy|]. intros p. rewrite H2. cbn. split; [tauto|]. intros [[<-|H] N]; [|tauto].
      exfalso. apply N. apply existsb_exists in E. destruct E as (q' & Hq & E). apply tuple_eqb_eq in E. now subst.
    + destruct (IH (q :: had)) as [H1 H2].
      assert (Nq : ~ In q had).
      { intros H. assert (existsb (tuple_eqb q) had = true) by (apply existsb_exists; exists q; split; [easy|apply tuple_eqb_refl]). congruence. }
      split.
      * constructor; [|easy]. rewrite H2. intros [_ H]. apply H. now left.
      * intros p. cbn. rewrite H2. cbn. destruct (list_eq_dec Nat.eq_dec q p) as [->|Ne]; [tauto|tauto].
Qed.
Lemma gen_unique_spec l : NoDup (gen_unique_permutations l) /\ forall p, In p (gen_unique_permutations l) <-> Permutation l p.
Proof.
  unfold gen_unique_permutations. destruct (unique_from_spec [] (gen_permutations l)) as [H1 H2]. split; [easy|].
  intros p. rewrite H2, gen_permutations_in. cbn. tauto.
Qed.
Lemma total_perm l l' : Permutation l l' -> total l = total l'.
Proof. unfold total. induction 1; cbn; lia. Qed.

Lemma betas_spec len m (bs := flat_map gen_unique_permutations (gdnts (S len) m None)) :
  NoDup bs /\ forall b, In b bs <-> length b = S len /\ total b = m.
Proof.
  split.
  - unfold bs. assert (H : forall ts, NoDup ts -> (forall t, In t ts -> dec t) -> NoDup (flat_map gen_unique_permutations ts)).
    { intros ts HN HD. induction HN as [|t ts Hn HN IH]; cbn [flat_map]; [constructor|].
      apply NoDup_app; [apply gen_unique_spec|apply IH; intros; apply HD; now right|].
      intros p Hp Hp'. apply in_flat_map in Hp'. destruct Hp' as (t' & Ht' & Hp'). apply gen_unique_spec in Hp. apply gen_unique_spec in Hp'.
      apply Hn. assert (t = t'); [|now subst]. apply dec_unique; [apply HD; now left|apply HD; now right|]. now rewrite Hp. }
    apply H; [apply gdnts_NoDup|]. intros t Ht. now apply gdnts_in in Ht.
  - intros b. unfold bs. rewrite in_flat_map. split.
    + intros (t & Ht & Hb). apply gen_unique_spec in Hb. apply gdnts_in in Ht. destruct Ht as (H1 & H2 & _).
      split; [now rewrite <- (Permutation_length Hb)|now rewrite <- (total_perm _ _ Hb)].
    + intros [H1 H2]. destruct (dec_exists b) as (t & P & Dt). exists t. split.
      * apply gdnts_in. split; [now rewrite <- (Permutation_length P)|]. split; [now rewrite <- (total_perm _ _ P)|]. split; [easy|discriminate].
      * apply gen_unique_spec. now symmetry.
Qed.

(** The same tuples by recursion. *)
Fixpoint comps (len m : nat) : list (list nat) :=
  match len with
  | O => match m with O => [[]] | S _ => [] end
  | S len' => flat_map (fun k => map (cons k) (comps len' (m - k))) (seq 0 (S m))
  end.
Lemma comps_in len : forall m b, In b (comps len m) <-> length b = len /\ total b = m.
Proof.
  induction len as [|len IH]; intros m b; cbn [comps].
  - destruct m as [|m]; cbn; split.
    + intros [<-|[]]. now split.
    + intros [H1 _]. destruct b; [now left|discriminate].
    + easy.
    + intros [H1 H2]. destruct b; [discriminate|discriminate].
  - rewrite in_flat_map. split.
    + intros (k & Hk & Hb). apply in_seq in Hk. apply in_map_iff in Hb. destruct Hb as (r & <- & Hr). apply IH in Hr.
      destruct Hr as [H1 H2]. split; [cbn; lia|]. unfold total in *. cbn [fold_right]. lia.
    + intros [H1 H2]. destruct b as [|k r]; [discriminate|]. exists k. unfold total in *. cbn [fold_right] in H2. split; [apply in_seq; lia|].
      apply in_map_iff. exists r. split; [reflexivity|]. apply IH. split; [cbn in H1; lia|]. unfold total. lia.
Qed.
Lemma comps_NoDup len : forall m, NoDup (comps len m).
Proof.
  induction len as [|len IH]; intros m; cbn [comps].
  - destruct m; repeat constructor; easy.
  - generalize (S m) at 1. intros N. generalize 0 at 1. intros st. revert st. induction N as [|N IHN]; intros st; cbn [seq flat_map]; [constructor|].
    apply NoDup_app.
    + apply FinFun.Injective_map_NoDup; [|apply IH]. intros u v E. now injection E.
    + apply IHN.
    + intros t Ht Ht'. apply in_map_iff in Ht. destruct Ht as (r & <- & _). apply in_flat_map in Ht'.
      destruct Ht' as (j & Hj & Hr). apply in_seq in Hj. apply in_map_iff in Hr. destruct Hr as (r' & E & _). injection E as E _. lia.
Qed.
Lemma betas_comps len m : Permutation (flat_map gen_unique_permutations (gdnts (S len) m None)) (comps (S len) m).
Proof.
  destruct (betas_spec len m) as [H1 H2]. apply NoDup_Permutation; [easy|apply comps_NoDup|].
  intros b. rewrite H2, comps_in. reflexivity.
Qed.
