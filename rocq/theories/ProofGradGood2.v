(** * Partial derivatives of the polynomials of a space; differentiation matrices as operators on nodal values *)
From Coquelicot Require Import Coquelicot.
From Coq Require Import List Arith Bool ZArith Reals Lra Lia.
From Verif Require Import Py PyToolsModel RSum IntFacts RField ModelLinAlg ProofLinAlg ModelNd ModelShapes ModelSpaces ModelNodes ModelModes ModelBasis ModelQuad
  ModelMatrices EnumFacts SpecIndex SpecGeometry SpecIntegral SpecPoly SpecPartial SpecSpan ProofNodeTuples ProofTPCall ProofTPGrad ProofTPNodes ProofMonomial ProofBasisDeriv
  ProofJacobi ProofJacobi2 ProofPKDO ProofPKDOOrtho ProofTPOrtho ProofSpaces ProofBasisIndex ProofEquispaced ProofQuad ProofMatrices ProofMatrices2 ProofDiffPerm ProofMatrices3 ProofExchange ProofGM ProofUnisolvent
  PropsBasis PropsMatrices PropsUnisolvent ProofSpaceNodes ProofGradGood.
Import ListNotations.
Local Open Scope R_scope.

Fixpoint dec (j : nat) (e : list nat) : list nat :=
  match e, j with
  | [], _ => []
  | k :: e', O => pred k :: e'
  | k :: e', S j' => k :: dec j' e'
  end.
Definition dterm (j : nat) (t : R * list nat) : R * list nat := (fst t * INR (nth j (snd t) 0%nat), dec j (snd t)).
Definition dpoly (j : nat) (ts : list (R * list nat)) : list (R * list nat) := map (dterm j) ts.

Lemma dec_length j e : length (dec j e) = length e.
Proof. revert j. induction e as [|k e IH]; intros [|j]; cbn [dec length]; auto. Qed.
Lemma total_cons' k e : total (k :: e) = (k + total e)%nat.
Proof. reflexivity. Qed.
Lemma dec_total j e : (total (dec j e) <= total e)%nat /\ (nth j e 0 <> 0 -> S (total (dec j e)) = total e)%nat.
Proof.
  revert j. induction e as [|k e IH]; intros [|j]; cbn [dec nth]; rewrite ?total_cons'.
  - split; [lia|congruence].
  - split; [lia|congruence].
  - split; [lia|]. intros. lia.
  - destruct (IH j) as [A B]. split; [lia|]. intros H. specialize (B H). lia.
Qed.
Lemma dmono_dec e j x : length e = length x -> dmono e j x = INR (nth j e 0%nat) * monoval (dec j e) x.
Proof.
  revert j x. induction e as [|k e IH]; intros j [|t x] H; try discriminate; [destruct j; cbn; ring|]. destruct j as [|j]; cbn [dmono dec nth monoval]; [ring|].
  cbn in H. rewrite IH by lia. ring.
Qed.
Lemma dec_app_l j e1 e2 : (j < length e1)%nat -> dec j (e1 ++ e2) = dec j e1 ++ e2.
Proof. revert j. induction e1 as [|k e IH]; intros [|j] H; cbn in *; try lia; [easy|]. now rewrite IH by lia. Qed.
Lemma dec_app_r j e1 e2 : (length e1 <= j)%nat -> dec j (e1 ++ e2) = e1 ++ dec (j - length e1) e2.
Proof. revert j. induction e1 as [|k e IH]; intros [|j] H; cbn in *; try lia; try easy. now rewrite IH by lia. Qed.
Lemma dec_comm i j e : dec i (dec j e) = dec j (dec i e).
Proof. revert i j. induction e as [|k e IH]; intros [|i] [|j]; cbn [dec]; try easy. now rewrite IH. Qed.
Lemma nth_dec i j e : i <> j -> nth i (dec j e) 0%nat = nth i e 0%nat.
Proof. revert i j. induction e as [|k e IH]; intros [|i] [|j] H; cbn [dec nth]; try easy. apply IH. congruence. Qed.
Lemma dterm_comm i j t : dterm i (dterm j t) = dterm j (dterm i t).
Proof.
  destruct (Nat.eq_dec i j) as [->|N]; [reflexivity|]. unfold dterm. cbn [fst snd]. rewrite !nth_dec by congruence. rewrite (dec_comm i j). f_equal. ring.
Qed.
Lemma dpoly_comm i j ts : dpoly i (dpoly j ts) = dpoly j (dpoly i ts).
Proof. unfold dpoly. rewrite !map_map. apply map_ext. intros; apply dterm_comm. Qed.

Lemma space_exp_dec s : forall e j, space_exp s e -> space_exp s (dec j e).
Proof.
  induction s as [d n|c ss IH] using fspace_ind'; intros e j H; inversion H as [? ? ? L T|? ? es HF]; subst.
  - constructor; [now rewrite dec_length|]. pose proof (proj1 (dec_total j e)). lia.
  - clear H. assert (G : exists es', Forall2 space_exp ss es' /\ dec j (concat es) = concat es').
    { revert j. induction HF as [|s e ss es H1 HF IHF]; intros j; [exists (@nil (list nat)); split; [apply Forall2_nil|now destruct j]|]. inversion IH as [|? ? I1 I2]; subst. cbn [concat].
      destruct (lt_dec j (length e)) as [Hl|Hl].
      - exists (dec j e :: es). split; [constructor; auto|]. cbn [concat]. now apply dec_app_l.
      - destruct (IHF I2 (j - length e)%nat) as (es' & A & B). exists (e :: es'). split; [now constructor|]. cbn [concat]. rewrite dec_app_r by lia. now rewrite B. }
    destruct G as (es' & A & ->). now constructor.
Qed.

Definition terms (s : fspace) (ts : list (R * list nat)) : Prop := Forall (fun t => space_exp s (snd t)) ts.
Lemma terms_dpoly s j ts : terms s ts -> terms s (dpoly j ts).
Proof. intros H. apply Forall_map. eapply Forall_impl; [|exact H]. intros t Ht. cbn [dterm snd]. now apply space_exp_dec. Qed.
Lemma polyval_deriv s ts j x : terms s ts -> length x = spatial_dim s -> (j < length x)%nat ->
  is_derive (fun t => polyval ts (upd x j t)) (nth j x 0) (polyval (dpoly j ts) x).
Proof.
  intros H Hx Hj. unfold polyval, dpoly. induction H as [|t ts Ht H IH]; cbn [map fold_right]; [apply @is_derive_const|].
  apply (is_derive_plus (fun y => fst t * monoval (snd t) (upd x j y)) (fun y => fold_right (fun t acc => fst t * monoval (snd t) (upd x j y) + acc) 0 ts)); [|exact IH].
  cbn [dterm fst snd]. apply space_exp_len in Ht. rewrite Rmult_assoc, <- dmono_dec by lia.
  apply (is_derive_scal (fun y => monoval (snd t) (upd x j y))). apply monoval_deriv; lia.
Qed.

Fixpoint max_degree (s : fspace) : nat :=
  match s with
  | PN _ n => n
  | TPSpace _ ss => sum_nat (map max_degree ss)
  end.
Lemma total_app' a b : total (a ++ b) = (total a + total b)%nat.
Proof. induction a as [|x a IH]; [reflexivity|]. rewrite <- app_comm_cons, !total_cons', IH. lia. Qed.
Lemma space_exp_total s : forall e, space_exp s e -> (total e <= max_degree s)%nat.
Proof.
  induction s as [d n|c ss IH] using fspace_ind'; intros e H; inversion H as [? ? ? L T|? ? es HF]; subst; [easy|]. cbn [max_degree]. clear H.
  induction HF as [|s e ss es H1 HF IHF]; [cbn; lia|]. inversion IH as [|? ? I1 I2]; subst. cbn [concat map]. rewrite total_app'.
  change (sum_nat (max_degree s :: map max_degree ss)) with (max_degree s + sum_nat (map max_degree ss))%nat. specialize (I1 e H1). specialize (IHF I2). lia.
Qed.

(** ** Matrices as operators on nodal values *)
Section Own.
  Context (s : fspace) (sh : shape) (xs : list (list R)) (Ds : list (nmat)).
  Hypothesis HF : fits s sh.
  Hypothesis HN : space_nodes s xs.
  Hypothesis LD : length Ds = spatial_dim s.
  Hypothesis HD : forall f, in_space s f -> forall i, (i < length xs)%nat ->
    has_partials f (pt xs i) (map (fun D => rsum (fun k => ent D i k * f (pt xs k)) (length xs)) Ds).

  Lemma own_apply ts a D i : terms s ts -> nth_error Ds a = Some D -> (i < length xs)%nat ->
    rsum (fun k => ent D i k * polyval ts (pt xs k)) (length xs) = polyval (dpoly a ts) (pt xs i).
  Proof.
    intros HT Ea Hi. assert (Ha : (a < spatial_dim s)%nat) by (rewrite <- LD; apply nth_error_Some; rewrite Ea; discriminate).
    assert (Lx : length (pt xs i) = spatial_dim s) by (apply HN; now apply pt_in).
    destruct (HD (polyval ts) ltac:(exists ts; split; [exact HT|easy]) i Hi) as [_ H1]. specialize (H1 a ltac:(lia)).
    assert (H2 := polyval_deriv s ts a (pt xs i) HT Lx ltac:(lia)).
    assert (E := nth_error_nth _ _ 0 (map_nth_error (fun D => rsum (fun k => ent D i k * polyval ts (pt xs k)) (length xs)) a _ Ea)). cbv beta in E. rewrite E in H1.
    apply is_derive_unique in H1. apply is_derive_unique in H2. rewrite <- H1. exact H2.
  Qed.
  Lemma own_interp (u : nat -> R) : exists ts, terms s ts /\ forall i, (i < length xs)%nat -> u i = polyval ts (pt xs i).
  Proof.
    destruct (gen_interpolation s sh xs HN HF u) as (f & (ts & A & B) & V0 & _). exists ts. split; [exact A|]. intros i Hi. rewrite <- V0 by easy. apply B.
    apply HN. now apply pt_in.
  Qed.
  Definition app (D : nmat) (u : nat -> R) : nat -> R := fun i => rsum (fun k => ent D i k * u k) (length xs).
  Lemma own_app ts a D u : terms s ts -> nth_error Ds a = Some D -> (forall i, (i < length xs)%nat -> u i = polyval ts (pt xs i)) ->
    forall i, (i < length xs)%nat -> app D u i = polyval (dpoly a ts) (pt xs i).
  Proof.
    intros HT Ea Hu i Hi. unfold app. rewrite <- (own_apply ts a D i HT Ea Hi). apply rsum_ext. intros k Hk. now rewrite Hu.
  Qed.
  Lemma own_commute a b A B u i : nth_error Ds a = Some A -> nth_error Ds b = Some B -> (i < length xs)%nat ->
    app A (app B u) i = app B (app A u) i.
  Proof.
    intros Ea Eb Hi. destruct (own_interp u) as (ts & HT & Hu).
    rewrite (own_app (dpoly b ts) a A) by (auto using terms_dpoly; intros; apply (own_app ts b B u); auto).
    rewrite (own_app (dpoly a ts) b B) by (auto using terms_dpoly; intros; apply (own_app ts a A u); auto).
    now rewrite dpoly_comm.
  Qed.
  Lemma own_const a A i : nth_error Ds a = Some A -> (i < length xs)%nat -> app A (fun _ => 1) i = 0.
  Proof.
    intros Ea Hi. assert (Ha : (a < spatial_dim s)%nat) by (rewrite <- LD; apply nth_error_Some; rewrite Ea; discriminate).
    destruct (own_interp (fun _ => 1)) as (ts & HT & Hu). rewrite (own_app ts a A) by auto.
    assert (Lx : length (pt xs i) = spatial_dim s) by (apply HN; now apply pt_in).
    assert (E1 : exists ts1, terms s ts1 /\ forall x, length x = spatial_dim s -> polyval ts1 x = 1).
    { exists [(1, repeat 0%nat (spatial_dim s))]. split.
      - constructor; [|constructor]. cbn [snd]. clear. induction s as [d n|c ss IH] using fspace_ind'.
        + cbn [spatial_dim]. constructor; [apply repeat_length|]. assert (Z0 : forall m, total (repeat 0%nat m) = 0%nat) by (intros m; induction m as [|m IHm]; [reflexivity|exact IHm]). rewrite Z0. lia.
        + assert (G : exists es, Forall2 space_exp ss es /\ repeat 0%nat (spatial_dim (TPSpace c ss)) = concat es).
          { cbn [spatial_dim]. induction IH as [|t ss Ht IH IHs]; [exists []; split; [constructor|reflexivity]|]. destruct IHs as (es & E1 & E2).
            exists (repeat 0%nat (spatial_dim t) :: es). split; [now constructor|]. cbn [map concat]. rewrite <- E2, <- repeat_app. reflexivity. }
          destruct G as (es & G1 & ->). now constructor.
      - intros x Hx. unfold polyval. cbn [fold_right fst snd]. rewrite monoval_repeat0. ring. }
    destruct E1 as (ts1 & T1 & V1).
    assert (Z : forall x, length x = spatial_dim s -> polyval ts x = 1).
    { intros x Hx'. assert (Z0 : polyval ts x + -1 * polyval ts1 x = 0); [|rewrite V1 in Z0 by easy; lra].
      apply (proj2 (proj2 HN) (fun x => polyval ts x + -1 * polyval ts1 x)); [| |easy].
      - apply in_space_plus; [exists ts; easy|]. apply in_space_scal. exists ts1. easy.
      - intros y Hy. apply in_pt in Hy. destruct Hy as (k & Hk & ->). rewrite <- Hu by easy. rewrite V1; [ring|]. apply HN. now apply pt_in. }
    assert (H2 := polyval_deriv s ts a (pt xs i) HT Lx ltac:(lia)). apply is_derive_unique in H2. rewrite <- H2.
    apply is_derive_unique. eapply is_derive_ext; [intros t; symmetry; apply Z; now rewrite upd_length|]. apply @is_derive_const.
  Qed.
  Definition apps (Es : list nmat) (u : nat -> R) : nat -> R := fold_right app u Es.
  Lemma own_apps Es u ts : Forall (fun E => In E Ds) Es -> terms s ts -> (forall i, (i < length xs)%nat -> u i = polyval ts (pt xs i)) ->
    exists ts', terms s ts' /\ (forall t', In t' ts' -> fst t' = 0 \/ (total (snd t') + length Es <= max_degree s)%nat)
      /\ forall i, (i < length xs)%nat -> apps Es u i = polyval ts' (pt xs i).
  Proof.
    intros HE HT Hu. induction HE as [|E Es HE1 HE IH].
    - exists ts. split; [easy|]. split; [|exact Hu]. intros t Ht. right. cbn [length]. rewrite Nat.add_0_r. apply space_exp_total. unfold terms in HT. rewrite Forall_forall in HT. now apply HT.
    - destruct IH as (ts' & T' & B' & V'). apply In_nth_error in HE1. destruct HE1 as (a & Ea). exists (dpoly a ts'). split; [now apply terms_dpoly|]. split.
      + intros t Ht. apply in_map_iff in Ht. destruct Ht as (t0 & <- & Ht0). cbn [dterm fst snd length]. destruct (B' t0 Ht0) as [Z|Z]; [left; rewrite Z; ring|].
        destruct (Nat.eq_dec (nth a (snd t0) 0%nat) 0) as [N|N]; [left; rewrite N; cbn; ring|]. right. pose proof (proj2 (dec_total a (snd t0)) N). lia.
      + intros i Hi. cbn [apps fold_right]. now apply (own_app ts' a E (apps Es u)).
  Qed.
  Lemma own_nilpotent Es u i : Forall (fun E => In E Ds) Es -> (max_degree s < length Es)%nat -> (i < length xs)%nat -> apps Es u i = 0.
  Proof.
    intros HE HL Hi. destruct (own_interp u) as (ts & HT & Hu). destruct (own_apps Es u ts HE HT Hu) as (ts' & _ & B & V0). rewrite V0 by easy.
    clear -B HL. unfold polyval. induction ts' as [|t ts' IH]; [reflexivity|]. cbn [fold_right]. rewrite IH by (intros; apply B; now right).
    destruct (B t (or_introl eq_refl)) as [->|K]; [ring|lia].
  Qed.
End Own.
