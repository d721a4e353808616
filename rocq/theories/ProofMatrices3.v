(** * Further facts behind the statements of PropsMatrices *)
From Coquelicot Require Import Coquelicot.
From Coq Require Import List Arith Bool ZArith Reals Lra Lia Permutation.
From Verif Require Import Py PyToolsModel RSum RField ModelLinAlg ProofLinAlg ModelShapes ModelModes ModelBasis ModelQuad
  ModelMatrices EnumFacts SpecIntegral SpecPartial SpecSpan ProofMonomial ProofMatrices ProofMatrices2 ProofDiffPerm.
Import ListNotations.
Local Open Scope R_scope.

Lemma fn_lin fs j x : (j < length fs)%nat -> fn fs j x = lin fs (delta j) x.
Proof. intros H. unfold lin. now rewrite rsum_delta. Qed.

(** reindexing a sum by a permutation of the indices *)
Lemma fold_map_rsum f s n : fold_right Rplus 0 (map f (seq s n)) = rsum (fun k => f (s + k)%nat) n.
Proof.
  revert s. induction n as [|n IH]; intros s; [reflexivity|].
  cbn [seq map fold_right]. rewrite IH, rsum_shift. rewrite Nat.add_0_r. f_equal.
  apply rsum_ext. intros k _. f_equal. lia.
Qed.
Lemma fold_Rplus_perm l l' : Permutation l l' -> fold_right Rplus 0 l = fold_right Rplus 0 l'.
Proof. induction 1; cbn [fold_right]; lra. Qed.
Lemma rsum_reindex perm f n : length perm = n -> Permutation perm (seq 0 n) ->
  rsum (fun k => f (nth k perm 0%nat)) n = rsum f n.
Proof.
  intros L P.
  transitivity (fold_right Rplus 0 (map f (seq 0 n))); [|now rewrite fold_map_rsum].
  transitivity (fold_right Rplus 0 (map f perm)); [|now apply fold_Rplus_perm, Permutation_map].
  assert (E : perm = map (fun k => nth k perm 0%nat) (seq 0 n)).
  { apply (nth_ext _ _ 0%nat 0%nat); [now rewrite map_length, seq_length|]. intros i Hi.
    rewrite (nth_indep (map _ _) 0%nat (nth 0 perm 0%nat)) by (rewrite map_length, seq_length; lia).
    rewrite (map_nth (fun k => nth k perm 0%nat)), seq_nth by lia. reflexivity. }
  transitivity (fold_right Rplus 0 (map f (map (fun k => nth k perm 0%nat) (seq 0 n)))); [|now rewrite <- E]. rewrite map_map, fold_map_rsum. reflexivity.
Qed.

(** ** Differentiation on the span *)
Lemma diff_span junk fs gs nodes from_opt d
  (from := match from_opt with None => nodes | Some f => f end) :
  fs <> [] -> length gs = length fs -> nodes <> [] ->
  (forall x, In x nodes -> length x = d) ->
  (forall j x, (j < length fs)%nat -> In x nodes ->
     exists g, gfn gs j x = Ok g /\ has_partials (fn fs j) x g) ->
  defined_on fs from -> unisolvent fs from ->
  exists Ds, differentiation_matrices junk fs gs nodes from_opt = Ok Ds /\ length Ds = d
    /\ (forall D, In D Ds -> nrows D = length nodes /\ ncols D = length from)
    /\ forall c i, (i < length nodes)%nat ->
        has_partials (lin fs c) (pt nodes i)
          (map (fun D => rsum (fun k => ent D i k * lin fs c (pt from k)) (length from)) Ds).
Proof.
  intros Hf Hg Hn Hd HG HD HU.
  destruct (diff_matrices_core junk fs gs nodes from_opt d Hf Hg Hn) as (Ds & E & L & H); try assumption.
  { intros j x Hj Hx. destruct (HG j x Hj Hx) as (g & Eg & Hp). exists g. split; [easy|].
    destruct Hp as [Lp _]. now rewrite Lp, Hd. }
  fold from in H. exists Ds. split; [easy|]. split; [easy|]. split.
  { intros D HDs. apply In_nth_error in HDs. destruct HDs as (a & Ea). destruct (H a D Ea) as (A & B & _). easy. }
  intros c i Hi. pose proof (pt_in nodes i Hi) as Hin. pose proof (Hd _ Hin) as Hlen.
  set (g := fun j => match gfn gs j (pt nodes i) with Ok v => v | Err _ => [] end).
  assert (Hgj : forall j, (j < length fs)%nat -> gfn gs j (pt nodes i) = Ok (g j) /\ has_partials (fn fs j) (pt nodes i) (g j)).
  { intros j Hj. destruct (HG j _ Hj Hin) as (v & Ev & Hp). unfold g. rewrite Ev. easy. }
  pose proof (has_partials_lin fs c (pt nodes i) d g Hlen (fun j Hj => proj2 (Hgj j Hj))) as HP.
  replace (map (fun D => rsum (fun k => ent D i k * lin fs c (pt from k)) (length from)) Ds)
     with (map (fun a => rsum (fun j => c j * nth a (g j) 0) (length fs)) (seq 0 d)); [exact HP|].
  apply (nth_ext _ _ 0 0); [now rewrite !map_length, seq_length|].
  intros a Ha. rewrite map_length, seq_length in Ha.
  rewrite (nth_map_seq (fun a => rsum (fun j => c j * nth a (g j) 0) (length fs))) by easy.
  destruct (nth_error Ds a) as [D|] eqn:EDa; [|apply nth_error_None in EDa; lia].
  rewrite (nth_indep _ 0 (rsum (fun k => ent (mkMat 0 0 (fun _ _ => 0)) i k * lin fs c (pt from k)) (length from)))
    by (rewrite map_length; lia).
  rewrite (map_nth (fun D => rsum (fun k => ent D i k * lin fs c (pt from k)) (length from))).
  rewrite (nth_error_nth _ _ _ EDa).
  destruct (H a D EDa) as (_ & _ & HH).
  rewrite (rsum_ext (fun k => ent D i k * lin fs c (pt from k))
     (fun k => ent D i k * rsum (fun j => V fs from k j * c j) (length fs))).
  2:{ intros k _. now rewrite lin_V. }
  rewrite (rsum_assoc (fun i k => ent D i k) (V fs from) c i). apply rsum_ext. intros j Hj.
  rewrite (HH i j (g j) Hi Hj (proj1 (Hgj j Hj))). ring.
Qed.

(** ** Exchange of axes *)
Lemma diff_exchange junk fs gs nodes nts dim k perm Ds :
  fs <> [] -> length gs = length fs -> nodes <> [] ->
  (forall x, In x nodes -> length x = dim) -> (k < dim)%nat ->
  (forall j x, (j < length fs)%nat -> In x nodes ->
     exists g, gfn gs j x = Ok g /\ has_partials (fn fs j) x g) ->
  defined_on fs nodes -> unisolvent fs nodes ->
  length nts = length nodes ->
  (forall i i', (i < length nodes)%nat -> (i' < length nodes)%nat ->
     nth i' nts [] = exch 0%nat k (nth i nts []) -> pt nodes i' = exch 0 k (pt nodes i)) ->
  (forall c, exists c', forall x, length x = dim -> lin fs c (exch 0 k x) = lin fs c' x) ->
  length perm = length nts -> Permutation perm (seq 0 (length nts)) ->
  (forall i, (i < length nts)%nat -> (nth i perm 0 < length nts)%nat
          /\ nth (nth i perm 0) nts [] = exch 0%nat k (nth i nts [])
          /\ nth (nth i perm 0) perm 0 = i)%nat ->
  differentiation_matrices junk fs gs nodes None = Ok Ds ->
  exists D0 Dk, nth_error Ds 0 = Some D0 /\ nth_error Ds k = Some Dk
    /\ forall i j, (i < length nodes)%nat -> (j < length nodes)%nat ->
         ent Dk i j = ent D0 (nth i perm 0%nat) (nth j perm 0%nat).
Proof.
  intros Hf Hg Hn Hd Hk HG HD HU Ln Hsym Hspan Lp Pp Hp ED.
  destruct (diff_span junk fs gs nodes None dim Hf Hg Hn Hd HG HD HU) as (Ds' & ED' & LD & _ & HP).
  assert (Ds' = Ds) by congruence. subst Ds'. clear ED'.
  destruct (nth_error Ds 0) as [D0|] eqn:E0; [|apply nth_error_None in E0; lia].
  destruct (nth_error Ds k) as [Dk|] eqn:Ek; [|apply nth_error_None in Ek; lia].
  exists D0, Dk. split; [easy|]. split; [easy|]. intros i j Hi Hj.
  set (n := length nodes) in *.
  assert (Hpi : forall i, (i < n)%nat -> (nth i perm 0 < n)%nat
     /\ pt nodes (nth i perm 0%nat) = exch 0 k (pt nodes i) /\ nth (nth i perm 0%nat) perm 0%nat = i).
  { intros i0 Hi0. destruct (Hp i0) as (A & B & C); [now rewrite Ln|]. rewrite Ln in A.
    split; [easy|]. split; [|easy]. now apply Hsym. }
  set (M2 := fun m => ent D0 (nth i perm 0%nat) (nth m perm 0%nat)).
  assert (NV : nonsing n (V fs nodes)).
  { destruct HU as [HL HU]. apply independent_inj in HU. rewrite HL in HU. exact HU. }
  refine (agree_on_V n (fun m => ent Dk i m) M2 (V fs nodes) NV _ j Hj).
  assert (HL : length fs = n) by apply HU.
  intros a Ha.
  (* left: the k-th partial derivative of f_a at x_i *)
  assert (part : forall b Db (c : nat -> R) i0, nth_error Ds b = Some Db -> (b < dim)%nat -> (i0 < n)%nat ->
     is_derive (fun t => lin fs c (upd (pt nodes i0) b t)) (nth b (pt nodes i0) 0)
       (rsum (fun m => ent Db i0 m * lin fs c (pt nodes m)) n)).
  { intros b Db c i0 Eb Hb Hi0. destruct (HP c i0 Hi0) as [_ HH].
    assert (Hb' : (b < length (pt nodes i0))%nat) by (rewrite Hd; [easy|now apply pt_in]).
    specialize (HH b Hb').
    rewrite (nth_indep (map (fun D => rsum (fun k => ent D i0 k * lin fs c (pt nodes k)) n) Ds) 0
       (rsum (fun k => ent (mkMat 0 0 (fun _ _ => 0)) i0 k * lin fs c (pt nodes k)) n)) in HH
      by (rewrite map_length; lia).
    rewrite (map_nth (fun D => rsum (fun k => ent D i0 k * lin fs c (pt nodes k)) n)) in HH.
    rewrite (nth_error_nth _ _ _ Eb) in HH. exact HH. }
  assert (HVa : forall m, V fs nodes m a = lin fs (delta a) (pt nodes m)).
  { intros m. unfold V. apply fn_lin. lia. }
  destruct (Hspan (delta a)) as (c' & Hc').
  destruct (Hpi i Hi) as (Hi' & Exi & Epi).
  assert (Hlen : length (pt nodes i) = dim) by (apply Hd, pt_in, Hi).
  (* right-hand side *)
  assert (ER : rsum (fun m => M2 m * V fs nodes m a) n
     = rsum (fun m => ent D0 (nth i perm 0%nat) m * lin fs c' (pt nodes m)) n).
  { transitivity (rsum (fun m => (fun m' => M2 m' * V fs nodes m' a) (nth m perm 0%nat)) n).
    - symmetry. apply (rsum_reindex perm (fun m' => M2 m' * V fs nodes m' a)); [now rewrite Lp, Ln|now rewrite <- Ln].
    - apply rsum_ext. intros m Hm. destruct (Hpi m Hm) as (A & B & C). unfold M2. rewrite C, HVa, B. f_equal.
      apply Hc'. apply Hd, pt_in, Hm. }
  rewrite ER. rewrite (rsum_ext _ (fun m => ent Dk i m * lin fs (delta a) (pt nodes m))).
  2:{ intros m _. now rewrite HVa. }
  pose proof (part k Dk (delta a) i Ek Hk Hi) as DL.
  pose proof (part 0%nat D0 c' (nth i perm 0%nat) E0 ltac:(lia) Hi') as DR.
  (* both are derivatives of the same function *)
  apply is_derive_unique in DL. apply is_derive_unique in DR.
  rewrite <- DL, <- DR. rewrite Exi.
  assert (Ept : nth 0 (exch 0 k (pt nodes i)) 0 = nth k (pt nodes i) 0).
  { rewrite exch_nth by lia. reflexivity. }
  rewrite Ept. apply Derive_ext. intros t.
  rewrite <- Hc' by (rewrite upd_length, exch_length; exact Hlen).
  f_equal. rewrite exch_upd by (rewrite exch_length; lia). rewrite exch_exch by lia. reflexivity.
Qed.

(** ** Mass matrices *)
Lemma agree2 n (A B W : nat -> nat -> R) : nonsing n W ->
  (forall a b, (a < n)%nat -> (b < n)%nat ->
     rsum (fun i => W i a * rsum (fun j => A i j * W j b) n) n
     = rsum (fun i => W i a * rsum (fun j => B i j * W j b) n) n) ->
  forall i j, (i < n)%nat -> (j < n)%nat -> A i j = B i j.
Proof.
  intros HW H.
  assert (H1 : forall i b, (i < n)%nat -> (b < n)%nat ->
     rsum (fun j => A i j * W j b) n = rsum (fun j => B i j * W j b) n).
  { intros i b Hi Hb.
    refine (agree_on_V n (fun i => rsum (fun j => A i j * W j b) n) (fun i => rsum (fun j => B i j * W j b) n) W HW _ i Hi).
    intros a Ha. specialize (H a b Ha Hb).
    transitivity (rsum (fun i => W i a * rsum (fun j => A i j * W j b) n) n); [apply rsum_ext; intros; ring|].
    rewrite H. apply rsum_ext; intros; ring. }
  intros i j Hi. refine (agree_on_V n (A i) (B i) W HW _ j). intros b Hb. now apply H1.
Qed.
