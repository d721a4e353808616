(** * C69: modal matrices of the deprecated functions *)
From Coq Require Import List Arith Bool ZArith Reals Lra Lia.
From Verif Require Import Py PyToolsModel RSum RField ModelLinAlg ProofLinAlg ModelShapes ModelModes ModelBasis ModelQuad
  ModelMatrices ModelFaces ModelMatricesDeprecated EnumFacts SpecPartial SpecSpan ProofMatrices ProofMatrices2 ProofDeprecated.
Import ListNotations.
Local Open Scope R_scope.

Lemma map2_nth (f : R -> R -> R) u v i : length u = length v -> (i < length u)%nat -> nth i (map2 f u v) 0 = f (nth i u 0) (nth i v 0).
Proof.
  unfold map2. revert v i. induction u as [|a u IH]; intros [|b v] i L Hi; cbn in *; try lia. destruct i as [|i]; [easy|]. apply IH; lia.
Qed.
Lemma map2_length (f : R -> R -> R) u v : length u = length v -> length (map2 f u v) = length u.
Proof. intros L. unfold map2. rewrite map_length, combine_length. lia. Qed.

Lemma scaled_rows (tests : list (list R -> res R)) pts w : length w = length pts ->
  mapM (fun f => let* vals := mapM f pts in vmul vals w) tests
  = match mapM (fun f => mapM f pts) tests with Ok cols => Ok (map (fun v => map2 Rmult v w) cols) | Err e => Err e end.
Proof.
  intros L. induction tests as [|f tests IH]; [reflexivity|]. cbn [mapM]. rewrite IH. clear IH.
  destruct (mapM f pts) as [v|] eqn:E; [|reflexivity]. cbn [bind]. unfold vmul. apply mapM_length in E.
  replace (length v =? length w)%nat with true by (symmetry; apply Nat.eqb_eq; lia). cbn [bind].
  destruct (mapM (fun f => mapM f pts) tests); reflexivity.
Qed.
Lemma solve_rows A tests pts w : length w = length pts ->
  (let* M := (let* rows := mapM (fun f => let* vals := mapM f pts in vmul vals w) tests in Ok (mat_of_rows (length tests) (length w) rows)) in np_solve A M)
  = (let* tv := vandermonde tests pts in let* M := mscale_cols (mT tv) w in np_solve A M).
Proof.
  intros L. rewrite scaled_rows by exact L. unfold vandermonde. destruct (mapM (fun f => mapM f pts) tests) as [cols|] eqn:E; [|reflexivity].
  cbn [bind]. unfold mscale_cols. cbn [mT nrows ncols ent mat_of_cols]. replace (length pts =? length w)%nat with true by (symmetry; apply Nat.eqb_eq; lia). cbn [bind].
  apply np_solve_ext; cbn [mat_of_rows nrows ncols ent]; [reflexivity|exact L|].
  intros i j Hi Hj. pose proof (mapM_length _ _ _ E) as LC.
  rewrite (nth_indep (map (fun v => map2 Rmult v w) cols) [] (map2 Rmult [] w)) by (rewrite map_length; exact (eq_ind_r (fun z => (i < z)%nat) Hi LC)).
  rewrite (map_nth (fun v => map2 Rmult v w)).
  destruct (nth_error cols i) as [v|] eqn:Ev; [|apply nth_error_None in Ev; lia].
  destruct (ProofMatrices2.mapM_nth _ _ _ E i v Ev) as (f & _ & Ef). apply mapM_length in Ef. rewrite (nth_error_nth _ _ _ Ev).
  apply map2_nth; lia.
Qed.

(** The bilinear modal matrix. *)
Lemma modal_face_ok tests trials tp tq w : length tp = length tq -> length w = length tq -> defined_on tests tp -> defined_on trials tq ->
  exists rows, mapM (fun test_f => let* test_vals := mapM test_f tp in
      mapM (fun trial_f => let* trial_vals := mapM trial_f tq in let* prod := vmul test_vals trial_vals in vdot prod w) trials) tests = Ok rows
    /\ forall a b, (a < length tests)%nat -> (b < length trials)%nat ->
       nth b (nth a rows []) 0 = rsum (fun k => V tests tp k a * V trials tq k b * nth k w 0) (length tq).
Proof.
  intros L1 L2 D1 D2.
  assert (IN : forall tv, length tv = length tq -> forall ts, (forall f, In f ts -> In f trials) ->
    exists row, mapM (fun trial_f => let* trial_vals := mapM trial_f tq in let* prod := vmul tv trial_vals in vdot prod w) ts = Ok row
    /\ forall b, (b < length ts)%nat -> nth b row 0 = rsum (fun k => nth k tv 0 * V ts tq k b * nth k w 0) (length tq)).
  { intros tv Lv. induction ts as [|f ts IH]; intros HS; [exists []; split; [easy|cbn; lia]|].
    destruct IH as (row & Er & Hr); [intros; apply HS; now right|].
    destruct (mapM_succeeds f tq) as (vs & Evs); [intros x Hx; apply (D2 f x); [apply HS; now left|exact Hx]|].
    destruct (mapM_vals _ _ _ Evs) as [Lvs Hvs].
    exists (dotR (map2 Rmult tv vs) w :: row). split.
    - assert (E1 : vmul tv vs = Ok (map2 Rmult tv vs)) by (unfold vmul; replace (length tv =? length vs)%nat with true by (symmetry; apply Nat.eqb_eq; lia); reflexivity).
      assert (E2 : vdot (map2 Rmult tv vs) w = Ok (dotR (map2 Rmult tv vs) w)).
      { unfold vdot. rewrite map2_length by lia. replace (length tv =? length w)%nat with true by (symmetry; apply Nat.eqb_eq; lia). reflexivity. }
      cbn [mapM]. rewrite Evs. cbn [bind]. rewrite E1. cbn [bind]. rewrite E2. cbn [bind]. rewrite Er. reflexivity.
    - intros [|b] Hb; cbn [nth].
      + rewrite fold_dot_rsum by (rewrite map2_length; lia). rewrite L2. apply rsum_ext. intros k Hk. rewrite map2_nth by lia. rewrite Hvs by lia. reflexivity.
      + rewrite Hr by (cbn in Hb; lia). reflexivity. }
  revert D1. induction tests as [|f tests IH]; intros D1; [exists []; split; [easy|cbn; lia]|].
  destruct IH as (rows & Er & Hr); [intros g x Hg Hx; apply D1; [now right|easy]|].
  destruct (mapM_succeeds f tp) as (vs & Evs); [intros x Hx; apply (D1 f x); [now left|exact Hx]|].
  destruct (mapM_vals _ _ _ Evs) as [Lvs Hvs]. destruct (IN vs ltac:(lia) trials ltac:(easy)) as (row & Erow & Hrow).
  exists (row :: rows). split.
  - cbn [mapM]. rewrite Evs. cbn [bind]. rewrite Erow. cbn [bind]. rewrite Er. reflexivity.
  - intros [|a] b Ha Hb; cbn [nth].
    + rewrite Hrow by easy. apply rsum_ext. intros k Hk. rewrite Hvs by lia. reflexivity.
    + rewrite Hr by (cbn in Ha; lia). reflexivity.
Qed.
