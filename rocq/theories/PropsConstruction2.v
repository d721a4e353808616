(** * C49, C50: finding weights, and the Gauss-Newton iteration for quadrature rules *)
From Coquelicot Require Import Coquelicot.
From Coq Require Import List Arith Bool ZArith Reals Lra Lia.
From Verif Require Import Py PyToolsModel RSum RField ModelLinAlg ProofLinAlg ModelModes ModelBasis ModelQuad
  ModelMatrices ModelConstruction2 EnumFacts SpecPartial SpecSpan ProofMatrices.
Import ListNotations.
Local Open Scope R_scope.

(** ** Vocabulary *)
(** The error of the rule with the given nodes and weights for the i-th integrand. *)
Definition defect (fs : list (list R -> res R)) (xs : list (list R)) (ws refs : list R) (i : nat) : R :=
  rsum (fun j => fn fs i (pt xs j) * nth j ws 0) (length xs) - nth i refs 0.
(** The rule integrates all integrands to the reference values. *)
Definition rule_exact fs xs ws refs : Prop :=
  forall i, (i < length fs)%nat -> rsum (fun j => nth j ws 0 * fn fs i (pt xs j)) (length xs) = nth i refs 0.
(** The nodes with node j replaced. *)
Definition upd_node (xs : list (list R)) (j : nat) (x : list R) : list (list R) := firstn j xs ++ x :: skipn (S j) xs.

Lemma defect_exact fs xs ws refs : rule_exact fs xs ws refs <-> forall i, (i < length fs)%nat -> defect fs xs ws refs i = 0.
Proof.
  unfold rule_exact, defect. split; intros H i Hi.
  - rewrite <- (H i Hi). apply Rminus_diag_eq. apply rsum_ext. intros; ring.
  - apply Rminus_diag_uniq. refine (eq_trans _ (H i Hi)). f_equal. apply rsum_ext. intros; ring.
Qed.

(** ** Least squares *)
Lemma nth_seq_map (f : nat -> R) n k d : (k < n)%nat -> nth k (map f (seq 0 n)) d = f k.
Proof. intros H. rewrite (nth_indep _ d (f 0%nat)) by (rewrite map_length, seq_length; lia). rewrite map_nth, seq_nth by easy. reflexivity. Qed.
Lemma sumsq_0 f n : rsum (fun i => f i ^ 2) n <= 0 -> forall i, (i < n)%nat -> f i = 0.
Proof.
  intros H i Hi. assert (f i ^ 2 <= rsum (fun i => f i ^ 2) n).
  { clear H. induction n as [|n IH]; [lia|]. rewrite rsum_S. destruct (Nat.eq_dec i n) as [->|N].
    - pose proof (rsum_nonneg (fun i => f i ^ 2) n ltac:(intros; apply pow2_ge_0)). lra.
    - pose proof (IH ltac:(lia)). pose proof (pow2_ge_0 (f n)). lra. }
  pose proof (pow2_ge_0 (f i)). assert (f i ^ 2 = 0) by lra. nra.
Qed.
Lemma lstsq_spec A b x : np_lstsq A b = Ok x -> length b = nrows A /\ length x = ncols A
  /\ (forall j, (j < ncols A)%nat -> rsum (fun i => ent A i j * (rsum (fun l => ent A i l * nth l x 0) (ncols A) - nth i b 0)) (nrows A) = 0)
  /\ (forall y, rsum (fun i => (rsum (fun l => ent A i l * nth l x 0) (ncols A) - nth i b 0) ^ 2) (nrows A)
                <= rsum (fun i => (rsum (fun l => ent A i l * y l) (ncols A) - nth i b 0) ^ 2) (nrows A))
  /\ (forall y, (forall i, (i < nrows A)%nat -> rsum (fun l => ent A i l * y l) (ncols A) = nth i b 0) ->
        (forall i, (i < nrows A)%nat -> rsum (fun l => ent A i l * nth l x 0) (ncols A) = nth i b 0)
        /\ rsum (fun l => nth l x 0 ^ 2) (ncols A) <= rsum (fun l => y l ^ 2) (ncols A)).
Proof.
  unfold np_lstsq. destruct (Nat.eqb_spec (length b) (nrows A)) as [LB|]; [|discriminate]. intros E.
  match type of E with Ok ?v = _ => assert (x = v) as -> by congruence end. clear E. split; [easy|]. split; [now rewrite map_length, seq_length|].
  set (c := fun j => rsum (fun k => ent (np_pinv A) j k * nth k b 0) (nrows A)).
  assert (EX : forall l, (l < ncols A)%nat -> nth l (map c (seq 0 (ncols A))) 0 = c l) by (intros; now apply nth_seq_map).
  assert (ES : forall i, rsum (fun l => ent A i l * nth l (map c (seq 0 (ncols A))) 0) (ncols A) = rsum (fun l => ent A i l * c l) (ncols A)) by (intros i; apply rsum_ext; intros l Hl; now rewrite EX).
  assert (NE : forall j, (j < ncols A)%nat -> rsum (fun i => ent A i j * (rsum (fun l => ent A i l * nth l (map c (seq 0 (ncols A))) 0) (ncols A) - nth i b 0)) (nrows A) = 0).
  { intros j Hj. refine (eq_trans _ (pinv_normal A (fun k => nth k b 0) j Hj)). apply rsum_ext. intros i Hi. rewrite ES. reflexivity. }
  split; [exact NE|].
  assert (OPT : forall y, rsum (fun i => (rsum (fun l => ent A i l * nth l (map c (seq 0 (ncols A))) 0) (ncols A) - nth i b 0) ^ 2) (nrows A)
                <= rsum (fun i => (rsum (fun l => ent A i l * y l) (ncols A) - nth i b 0) ^ 2) (nrows A)).
  { intros y. apply (normal_optimal (nrows A) (ncols A) (ent A) (fun i => nth i b 0) (fun l => nth l (map c (seq 0 (ncols A))) 0) y). exact NE. }
  split; [exact OPT|]. intros y Hy. split.
  - intros i Hi. apply Rminus_diag_uniq.
    apply (sumsq_0 (fun i => rsum (fun l => ent A i l * nth l (map c (seq 0 (ncols A))) 0) (ncols A) - nth i b 0) (nrows A)); [|easy].
    eapply Rle_trans; [apply (OPT y)|]. right. apply rsum_0. intros k Hk. rewrite Hy by easy. ring.
  - (* x = P b with b = A y, so x is the orthogonal projection P A y of y *)
    rewrite (rsum_ext _ (fun l => c l ^ 2)) by (intros l Hl; now rewrite EX).
    destruct (np_pinv_penrose A) as (P1 & P2 & _ & P4). set (m := nrows A) in *. set (n := ncols A) in *. set (p := ent (np_pinv A)) in *. set (a := ent A) in *.
    assert (CY : forall l, (l < n)%nat -> c l = rsum (fun k => prodf m p a l k * y k) n).
    { intros l Hl. unfold c. fold m p. rewrite (rsum_ext _ (fun k => p l k * rsum (fun q => a k q * y q) n)) by (intros k Hk; now rewrite Hy).
      rewrite (rsum_assoc (fun l k => p l k) a y l m n). reflexivity. }
    assert (CC : forall l, (l < n)%nat -> rsum (fun k => prodf m p a l k * c k) n = c l).
    { intros l Hl. unfold c. fold m p. rewrite (rsum_assoc (prodf m p a) p (fun k => nth k b 0) l n m). apply rsum_ext. intros k Hk. f_equal. exact (P2 l k Hl Hk). }
    (* <c, y - c> = 0 *)
    assert (OR : rsum (fun l => c l * (y l - c l)) n = 0).
    { rewrite (rsum_ext _ (fun l => c l * y l - c l * c l)) by (intros; ring). rewrite rsum_minus. apply Rminus_diag_eq.
      transitivity (rsum (fun l => rsum (fun k => prodf m p a l k * c k) n * y l) n); [apply rsum_ext; intros l Hl; now rewrite CC|].
      transitivity (rsum (fun k => c k * rsum (fun l => prodf m p a k l * y l) n) n).
      - rewrite (rsum_ext _ (fun l => rsum (fun k => prodf m p a l k * c k * y l) n)) by (intros; now rewrite rsum_scal_r).
        rewrite rsum_swap. apply rsum_ext. intros k Hk. rewrite <- rsum_scal. apply rsum_ext. intros l Hl. rewrite (P4 l k Hl Hk). ring.
      - apply rsum_ext. intros k Hk. rewrite <- CY by easy. ring. }
    apply Rle_trans with (rsum (fun l => c l ^ 2) n + 2 * rsum (fun l => c l * (y l - c l)) n + rsum (fun l => (y l - c l) ^ 2) n).
    + rewrite OR. pose proof (rsum_nonneg (fun l => (y l - c l) ^ 2) n ltac:(intros; apply pow2_ge_0)). lra.
    + right. rewrite <- rsum_scal, <- !rsum_plus. apply rsum_ext. intros; ring.
Qed.

(** ** C50 *)
(** One weight per node; exact as soon as some weights are (then also of least norm among the exact ones);
    in any case the normal equations hold and the sum of squared errors is minimal. *)
Theorem C50_weights fs nodes refs warned w : find_weights fs nodes refs = Ok (warned, w) ->
  let xs := points nodes in
  length refs = length fs /\ length w = length xs
  /\ (forall w', rule_exact fs xs w' refs -> rule_exact fs xs w refs /\ rsum (fun j => nth j w 0 ^ 2) (length xs) <= rsum (fun j => nth j w' 0 ^ 2) (length xs))
  /\ (forall j, (j < length xs)%nat -> rsum (fun i => fn fs i (pt xs j) * defect fs xs w refs i) (length fs) = 0)
  /\ (forall w', rsum (fun i => defect fs xs w refs i ^ 2) (length fs) <= rsum (fun i => defect fs xs w' refs i ^ 2) (length fs)).
Proof.
  unfold find_weights. destruct (Nat.eqb_spec (length refs) (length fs)) as [LR|]; cbn [negb]; [|discriminate].
  destruct (vandermonde fs (points nodes)) as [A|] eqn:EA; [|discriminate]. cbn [bind]. destruct (np_lstsq (mT A) refs) as [x|] eqn:EX; [|discriminate]. cbn [bind].
  intros E. match type of E with Ok (_, ?v) = _ => assert (w = v) as -> by congruence end. cbv zeta. set (xs := points nodes) in *.
  destruct (vandermonde_inv _ _ _ EA) as (RA & CA & HA & _). destruct (lstsq_spec _ _ _ EX) as (L1 & L2 & NE & OPT & SOL).
  cbn [mT nrows ncols ent] in *. rewrite RA, CA in *.
  assert (D : forall v i, (i < length fs)%nat -> rsum (fun l => ent A l i * nth l v 0) (length xs) - nth i refs 0 = defect fs xs v refs i).
  { intros v i Hi. unfold defect. f_equal. apply rsum_ext. intros l Hl. rewrite HA by easy. reflexivity. }
  split; [easy|]. split; [easy|]. split; [|split].
  - intros w' Hw. destruct (SOL (fun l => nth l w' 0)) as [S1 S2].
    { intros i Hi. rewrite <- (Hw i Hi). apply rsum_ext. intros l Hl. rewrite HA by easy. unfold V. ring. }
    split; [|exact S2]. intros i Hi. rewrite <- (S1 i Hi). apply rsum_ext. intros l Hl. rewrite HA by easy. unfold V. ring.
  - intros j Hj. refine (eq_trans _ (NE j Hj)). apply rsum_ext. intros i Hi. rewrite HA, D by easy. reflexivity.
  - intros w'. rewrite (rsum_ext (fun i => defect fs xs x refs i ^ 2) (fun i => (rsum (fun l => ent A l i * nth l x 0) (length xs) - nth i refs 0) ^ 2)) by (intros i Hi; now rewrite D).
    rewrite (rsum_ext (fun i => defect fs xs w' refs i ^ 2) (fun i => (rsum (fun l => ent A l i * nth l w' 0) (length xs) - nth i refs 0) ^ 2)) by (intros i Hi; now rewrite D).
    apply (OPT (fun l => nth l w' 0)).
Qed.
(** When it returns. *)
Theorem C50_succeeds fs nodes refs : defined_on fs (points nodes) -> length refs = length fs -> exists r, find_weights fs nodes refs = Ok r.
Proof.
  intros D L. unfold find_weights. rewrite L, Nat.eqb_refl. cbn [negb]. destruct (vandermonde_succeeds _ _ D) as [A EA]. rewrite EA. cbn [bind].
  destruct (vandermonde_inv _ _ _ EA) as (RA & CA & _). unfold np_lstsq. cbn [mT nrows ncols]. rewrite L, CA, Nat.eqb_refl. cbn [bind]. eauto.
Qed.
Theorem C50_mismatch fs nodes refs : length refs <> length fs -> find_weights fs nodes refs = Err ValueError.
Proof. intros N. unfold find_weights. destruct (Nat.eqb_spec (length refs) (length fs)); [easy|reflexivity]. Qed.
(** With as many integrands as nodes, unisolvent, the weights are the unique exact ones. *)
Theorem C50_square fs nodes refs warned w : find_weights fs nodes refs = Ok (warned, w) -> unisolvent fs (points nodes) ->
  rule_exact fs (points nodes) w refs /\ forall w', length w' = length w -> rule_exact fs (points nodes) w' refs -> w' = w.
Proof.
  intros H [LU HU]. destruct (C50_weights _ _ _ _ _ H) as (LR & LW & EX & NE & OPT). set (xs := points nodes) in *.
  (* the defect pairs to 0 with the values of every combination at the nodes, and V is injective *)
  assert (EXW : rule_exact fs xs w refs).
  { apply defect_exact. intros i Hi. apply (HU (fun i => defect fs xs w refs i)); [|easy]. intros x Hx. destruct (in_pt xs x Hx) as (j & Hj & ->).
    unfold lin. refine (eq_trans _ (NE j Hj)). apply rsum_ext. intros; ring. }
  split; [exact EXW|]. intros w' L' H'.
  assert (IV : nonsing (length xs) (V fs xs)).
  { unfold nonsing. intros c Hc. apply independent_inj in HU. unfold inj_cols in HU. rewrite LU in HU. now apply HU. }
  assert (TV : nonsing (length xs) (fun i j => V fs xs j i)) by (now apply nonsing_tr).
  apply nth_ext with (d := 0) (d' := 0); [easy|]. intros j Hj. rewrite L', LW in Hj. revert j Hj.
  apply (nonsing_cancel (length xs) (fun i j => V fs xs j i) (fun j => nth j w' 0) (fun j => nth j w 0) TV).
  intros i Hi. unfold V. transitivity (nth i refs 0).
  - rewrite <- (H' i) by lia. apply rsum_ext. intros; ring.
  - rewrite <- (EXW i) by lia. apply rsum_ext. intros; ring.
Qed.
(** The warning about an underdetermined system compares with the number of axes, not of nodes, for a two-dimensional node array. *)
Theorem C50_warning_flat fs xs refs warned w : find_weights fs (NodesFlat xs) refs = Ok (warned, w) -> warned = (length fs <? length xs)%nat.
Proof.
  unfold find_weights. destruct (Nat.eqb_spec (length refs) (length fs)) as [LR|]; cbn [negb]; [|discriminate].
  destruct (vandermonde _ _) as [A|]; [|discriminate]. cbn [bind]. destruct (np_lstsq _ _) as [x|]; [|discriminate]. cbn [bind py_len]. rewrite LR. intros E. congruence.
Qed.
Theorem C50_warning_refuted : exists fs nodes refs w, find_weights fs nodes refs = Ok (false, w) /\ (length fs < length (points nodes))%nat.
Proof.
  exists [(fun _ => Ok 1); (fun x => Ok (nth 0 x 0))], (NodesNd 2 [[0; 0]; [1; 0]; [0; 1]]), [1; 1].
  destruct (C50_succeeds [(fun _ => Ok 1); (fun x => Ok (nth 0 x 0))] (NodesNd 2 [[0; 0]; [1; 0]; [0; 1]]) [1; 1]) as [[warned w] E].
  - intros f x [<-|[<-|[]]] _; eauto.
  - reflexivity.
  - exists w. split; [|cbn; lia]. rewrite E. f_equal. f_equal. unfold find_weights in E. cbn [length Nat.eqb negb] in E.
    destruct (vandermonde _ _) as [A|]; [|discriminate]. cbn [bind] in E. destruct (np_lstsq _ _) as [y|]; [|discriminate]. cbn [bind py_len Nat.ltb Nat.leb] in E. congruence.
Qed.

(** ** C49 *)
Lemma hstack_spec m n As : forall B, Forall (fun A => nrows A = m /\ ncols A = n) As -> hstack As = Ok B ->
  nrows B = m /\ ncols B = (length As * n)%nat
  /\ forall a i j, (a < length As)%nat -> (j < n)%nat -> ent B i (a * n + j) = ent (nth a As B) i j.
Proof.
  induction As as [|A As IH]; intros B HF H; [discriminate|]. inversion HF as [|? ? [R1 C1] HF']; subst. destruct As as [|A' As].
  - cbn [hstack] in H. assert (B = A) as -> by congruence. split; [easy|]. split; [cbn [length]; lia|]. intros a i j Ha Hj. cbn [length] in Ha. assert (a = 0)%nat as -> by lia. reflexivity.
  - change (hstack (A :: A' :: As)) with (let* B' := hstack (A' :: As) in hstack2 A B') in H. destruct (hstack (A' :: As)) as [B'|] eqn:E; [|discriminate].
    cbn [bind] in H. destruct (IH B' HF' eq_refl) as (R2 & C2 & E2). unfold hstack2 in H. destruct (Nat.eqb_spec (nrows A) (nrows B')); [|discriminate].
    match type of H with Ok ?v = _ => assert (B = v) as -> by congruence end. cbn [nrows ncols ent]. split; [easy|]. split; [cbn [length] in *; lia|].
    intros a i j Ha Hj. destruct a as [|a].
    + cbn [Nat.mul Nat.add nth]. destruct (Nat.ltb_spec j (ncols A)); [easy|lia].
    + destruct (Nat.ltb_spec (S a * ncols A + j) (ncols A)); [nia|]. replace (S a * ncols A + j - ncols A)%nat with (a * ncols A + j)%nat by lia.
      rewrite E2 by (cbn [length] in *; lia). match goal with |- _ = ent (nth (S a) _ ?d) _ _ => change (nth (S a) (A :: A' :: As) d) with (nth a (A' :: As) d); rewrite (nth_indep (A' :: As) B' d) by (cbn [length] in *; lia) end. reflexivity.
Qed.
Lemma mapM_nth {A B} (f : A -> res B) l r da db : mapM f l = Ok r -> length r = length l /\ forall i, (i < length l)%nat -> f (nth i l da) = Ok (nth i r db).
Proof.
  revert r. induction l as [|a l IH]; intros r H; cbn [mapM] in H; [assert (r = []) as -> by congruence; split; [easy|cbn [length]; lia]|].
  destruct (f a) as [b|] eqn:E; [|discriminate]. cbn [bind] in H. destruct (mapM f l) as [bs|]; [|discriminate]. cbn [bind] in H. assert (r = b :: bs) as -> by congruence.
  destruct (IH bs eq_refl) as [L X]. split; [cbn [length]; lia|]. intros [|i] Hi; cbn [nth]; [easy|apply X; cbn [length] in Hi; lia].
Qed.
(** The derivatives handed in are the partial derivatives of the integrands at the nodes. *)
Definition derivatives_ok (fs : list (list R -> res R)) (dfs : list (list (list R -> res R))) (xs : list (list R)) : Prop :=
  forall a i x, (a < length dfs)%nat -> (i < length fs)%nat -> In x xs ->
    is_derive (fun t => fn fs i (upd x a t)) (nth a x 0) (fn (nth a dfs []) i x).

Theorem C49_shapes_and_entries ndim xs ws fs dfs refs q : length refs = length fs ->
  quad_residual_and_jacobian (NodesNd ndim xs) ws fs dfs refs = Ok q ->
  length ws = length xs /\ length dfs = ndim
  /\ length (residual q) = length fs /\ nrows (dresid_dweights q) = length fs /\ ncols (dresid_dweights q) = length xs
  /\ nrows (dresid_dnodes q) = length fs /\ ncols (dresid_dnodes q) = (ndim * length xs)%nat
  /\ (forall i, (i < length fs)%nat -> nth i (residual q) 0 = defect fs xs ws refs i)
  /\ (forall i j, (i < length fs)%nat -> (j < length xs)%nat -> ent (dresid_dweights q) i j = fn fs i (pt xs j))
  /\ (forall a i j, (a < ndim)%nat -> (i < length fs)%nat -> (j < length xs)%nat ->
        ent (dresid_dnodes q) i (a * length xs + j) = fn (nth a dfs []) i (pt xs j) * nth j ws 0).
Proof.
  intros LR. unfold quad_residual_and_jacobian. destruct (Nat.eqb_spec (length dfs) ndim) as [LD|]; cbn [negb]; [|discriminate].
  destruct (existsb _ dfs) eqn:EE; [discriminate|].
  destruct (vandermonde fs xs) as [A|] eqn:EA; [|discriminate]. cbn [bind]. destruct (vandermonde_inv _ _ _ EA) as (RA & CA & HA & _).
  unfold np_matvec. cbn [mT nrows ncols ent]. rewrite RA, CA. destruct (Nat.eqb_spec (length xs) (length ws)) as [LW|]; [|discriminate]. cbn [bind].
  unfold np_vsub. rewrite map_length, seq_length, LR, Nat.eqb_refl. cbn [bind].
  destruct (mapM _ dfs) as [bl|] eqn:EB; [|discriminate]. cbn [bind]. destruct (hstack bl) as [dn|] eqn:EH; [|discriminate]. cbn [bind].
  intros E. match type of E with Ok ?v = _ => assert (q = v) as -> by congruence end. clear E. cbn [residual dresid_dweights dresid_dnodes mT nrows ncols ent].
  destruct (mapM_nth _ dfs bl [] dn EB) as [LB NB].
  assert (LA : forall a, (a < length dfs)%nat -> length (nth a dfs []) = length fs).
  { intros a Ha. destruct (Nat.eqb_spec (length (nth a dfs [])) (length fs)) as [|N]; [easy|]. exfalso.
    assert (T : existsb (fun ax => negb (length ax =? length fs)%nat) dfs = true).
    { apply existsb_exists. exists (nth a dfs []). split; [now apply nth_In|]. destruct (Nat.eqb_spec (length (nth a dfs [])) (length fs)); easy. }
    rewrite T in EE. discriminate. }
  assert (BS : forall a, (a < length dfs)%nat -> nrows (nth a bl dn) = length fs /\ ncols (nth a bl dn) = length xs
      /\ forall i j, (i < length fs)%nat -> (j < length xs)%nat -> ent (nth a bl dn) i j = fn (nth a dfs []) i (pt xs j) * nth j ws 0).
  { intros a Ha. specialize (NB a Ha). destruct (vandermonde (nth a dfs []) xs) as [W|] eqn:EW; [|discriminate]. cbn [bind] in NB.
    destruct (vandermonde_inv _ _ _ EW) as (RW & CW & HW & _). unfold mscale_cols in NB. cbn [mT ncols nrows ent] in NB. rewrite RW, LW, Nat.eqb_refl in NB.
    match type of NB with Ok ?v = _ => assert (nth a bl dn = v) as -> by congruence end. cbn [nrows ncols ent]. rewrite CW, LA by easy. split; [easy|]. split; [easy|].
    intros i j Hi Hj. rewrite HW by (rewrite ?LA; easy). reflexivity. }
  destruct (hstack_spec (length fs) (length xs) bl dn) as (R2 & C2 & E2); [|exact EH|].
  { apply Forall_forall. intros B HB. destruct (In_nth bl B dn HB) as (a & Ha & <-). rewrite LB in Ha. destruct (BS a Ha) as (B1 & B2 & _). easy. }
  split; [easy|]. split; [easy|]. split; [now rewrite map_length, seq_length|]. split; [easy|]. split; [easy|]. split; [easy|]. split; [congruence|]. split; [|split].
  - intros i Hi. rewrite nth_seq_map by easy. rewrite nth_seq_map by easy. unfold defect. f_equal. apply rsum_ext. intros k Hk. rewrite HA by easy. reflexivity.
  - intros i j Hi Hj. now rewrite HA.
  - intros a i j Ha Hi Hj. rewrite E2 by lia. apply BS; lia.
Qed.
(** The residual vanishes exactly when the rule is exact. *)
Theorem C49_residual_zero ndim xs ws fs dfs refs q : length refs = length fs -> quad_residual_and_jacobian (NodesNd ndim xs) ws fs dfs refs = Ok q ->
  (forall i, (i < length fs)%nat -> nth i (residual q) 0 = 0) <-> rule_exact fs xs ws refs.
Proof.
  intros LR H. destruct (C49_shapes_and_entries _ _ _ _ _ _ _ LR H) as (_ & _ & _ & _ & _ & _ & _ & R0 & _). rewrite defect_exact.
  split; intros Z i Hi; [rewrite <- R0|rewrite R0]; auto.
Qed.
Lemma nth_upd xs j k t : (j < length xs)%nat -> nth k (upd xs j t) 0 = if (k =? j)%nat then t else nth k xs 0.
Proof.
  revert j k. induction xs as [|x xs IH]; intros j k Hj; [cbn [length] in Hj; lia|]. destruct j as [|j], k as [|k]; cbn [upd nth Nat.eqb]; try easy. apply IH. cbn [length] in Hj. lia.
Qed.
Lemma pt_upd xs j k x : (j < length xs)%nat -> pt (upd_node xs j x) k = if (k =? j)%nat then x else pt xs k.
Proof.
  intros Hj. unfold pt, upd_node. assert (L : length (firstn j xs) = j) by (apply firstn_length_le; lia). destruct (Nat.eqb_spec k j) as [->|N].
  - rewrite app_nth2 by lia. rewrite L, Nat.sub_diag. reflexivity.
  - destruct (Nat.lt_ge_cases k j) as [Q|Q].
    + rewrite app_nth1 by lia. rewrite <- (firstn_skipn j xs) at 2. now rewrite app_nth1 by lia.
    + rewrite app_nth2 by lia. rewrite L. destruct (k - j)%nat as [|p] eqn:E; [lia|]. cbn [nth]. rewrite <- (firstn_skipn (S j) xs) at 2.
      rewrite app_nth2; rewrite firstn_length_le by lia; [|lia]. f_equal. lia.
Qed.
Lemma upd_node_length xs j x : (j < length xs)%nat -> length (upd_node xs j x) = length xs.
Proof. intros H. unfold upd_node. rewrite app_length. cbn [length]. rewrite firstn_length_le, skipn_length by lia. lia. Qed.
(** A sum in which only one term varies. *)
Lemma rsum_update f g n j : (j < n)%nat -> (forall k, (k < n)%nat -> k <> j -> f k = g k) -> rsum f n = rsum g n + (f j - g j).
Proof.
  intros Hj H. assert (E : rsum (fun k => f k - g k) n = f j - g j).
  { apply (rsum_single (fun k => f k - g k) n j Hj). intros k Hk N. rewrite H by easy. ring. }
  rewrite rsum_minus in E. lra.
Qed.
(** The weight block holds the derivatives of the error with respect to the weights. *)
Theorem C49_weight_jacobian ndim xs ws fs dfs refs q : length refs = length fs -> quad_residual_and_jacobian (NodesNd ndim xs) ws fs dfs refs = Ok q ->
  forall i j, (i < length fs)%nat -> (j < length xs)%nat ->
  is_derive (fun t => defect fs xs (upd ws j t) refs i) (nth j ws 0) (ent (dresid_dweights q) i j).
Proof.
  intros LR H i j Hi Hj. destruct (C49_shapes_and_entries _ _ _ _ _ _ _ LR H) as (LW & _ & _ & _ & _ & _ & _ & _ & EW & _). rewrite EW by easy.
  apply (is_derive_ext (fun t => defect fs xs ws refs i + fn fs i (pt xs j) * (t - nth j ws 0))).
  - intros t. change (defect fs xs ws refs i + fn fs i (pt xs j) * (t - nth j ws 0) = defect fs xs (upd ws j t) refs i). unfold defect.
    rewrite (rsum_update (fun k => fn fs i (pt xs k) * nth k (upd ws j t) 0) (fun k => fn fs i (pt xs k) * nth k ws 0) (length xs) j Hj).
    + rewrite nth_upd by lia. rewrite Nat.eqb_refl. ring.
    + intros k Hk N. rewrite nth_upd by lia. destruct (Nat.eqb_spec k j); [lia|easy].
  - auto_derive; [exact I|ring].
Qed.
(** Column a*nnodes+j of the node block holds the derivatives with respect to coordinate a of node j. *)
Theorem C49_node_jacobian ndim xs ws fs dfs refs q : length refs = length fs -> quad_residual_and_jacobian (NodesNd ndim xs) ws fs dfs refs = Ok q ->
  derivatives_ok fs dfs xs ->
  forall a i j, (a < ndim)%nat -> (i < length fs)%nat -> (j < length xs)%nat ->
  is_derive (fun t => defect fs (upd_node xs j (upd (pt xs j) a t)) ws refs i) (nth a (pt xs j) 0) (ent (dresid_dnodes q) i (a * length xs + j)).
Proof.
  intros LR H HD a i j Ha Hi Hj. destruct (C49_shapes_and_entries _ _ _ _ _ _ _ LR H) as (LW & LD & _ & _ & _ & _ & _ & _ & _ & EN). rewrite EN by easy.
  pose proof (HD a i (pt xs j) ltac:(lia) Hi (pt_in xs j Hj)) as D.
  apply (is_derive_ext (fun t => nth j ws 0 * fn fs i (upd (pt xs j) a t) + (defect fs xs ws refs i - fn fs i (pt xs j) * nth j ws 0))).
  - intros t. change (nth j ws 0 * fn fs i (upd (pt xs j) a t) + (defect fs xs ws refs i - fn fs i (pt xs j) * nth j ws 0) = defect fs (upd_node xs j (upd (pt xs j) a t)) ws refs i).
    unfold defect. rewrite upd_node_length by easy.
    rewrite (rsum_update (fun k => fn fs i (pt (upd_node xs j (upd (pt xs j) a t)) k) * nth k ws 0) (fun k => fn fs i (pt xs k) * nth k ws 0) (length xs) j Hj).
    + rewrite pt_upd by easy. rewrite Nat.eqb_refl. ring.
    + intros k Hk N. rewrite pt_upd by easy. destruct (Nat.eqb_spec k j); [lia|easy].
  - replace (fn (nth a dfs []) i (pt xs j) * nth j ws 0) with (nth j ws 0 * fn (nth a dfs []) i (pt xs j) + 0) by ring.
    apply (is_derive_plus (fun t => nth j ws 0 * fn fs i (upd (pt xs j) a t)) (fun _ => defect fs xs ws refs i - fn fs i (pt xs j) * nth j ws 0)); [|apply (is_derive_const (V := R_NormedModule))].
    apply (is_derive_scal (fun t => fn fs i (upd (pt xs j) a t)) (nth a (pt xs j) 0) (nth j ws 0) (fn (nth a dfs []) i (pt xs j))). exact D.
Qed.
(** Refusals *)
Theorem C49_wrong_axes ndim xs ws fs dfs refs : length dfs <> ndim -> quad_residual_and_jacobian (NodesNd ndim xs) ws fs dfs refs = Err ValueError.
Proof. intros N. unfold quad_residual_and_jacobian. destruct (Nat.eqb_spec (length dfs) ndim); [easy|reflexivity]. Qed.
Theorem C49_wrong_count ndim xs ws fs dfs refs ax : In ax dfs -> length ax <> length fs -> quad_residual_and_jacobian (NodesNd ndim xs) ws fs dfs refs = Err ValueError.
Proof.
  intros HI N. unfold quad_residual_and_jacobian. destruct (Nat.eqb_spec (length dfs) ndim); cbn [negb]; [|reflexivity].
  replace (existsb _ dfs) with true; [reflexivity|]. symmetry. apply existsb_exists. exists ax. split; [easy|]. destruct (Nat.eqb_spec (length ax) (length fs)); easy.
Qed.
(** One-dimensional node arrays, although documented, are always refused. *)
Theorem C49_flat_refuted xs ws fs dfs refs : quad_residual_and_jacobian (NodesFlat xs) ws fs dfs refs = Err ValueError.
Proof. reflexivity. Qed.

(** *** The Gauss-Newton increment *)
(** The linearised error after changing the weights by dw and coordinate a of node j by dx a j. *)
Definition linearised (q : qrj) (ndim nnodes : nat) (dw : nat -> R) (dx : nat -> nat -> R) (i : nat) : R :=
  nth i (residual q) 0 + rsum (fun j => ent (dresid_dweights q) i j * dw j) nnodes
  + rsum (fun a => rsum (fun j => ent (dresid_dnodes q) i (a * nnodes + j) * dx a j) nnodes) ndim.
Lemma rsum_mul f n m : rsum f (n * m) = rsum (fun a => rsum (fun j => f (a * m + j)%nat) m) n.
Proof.
  induction n as [|n IH]; [reflexivity|]. rewrite rsum_S, <- IH. replace (S n * m)%nat with (n * m + m)%nat by lia. now rewrite rsum_app.
Qed.
Lemma nth_firstn (l : list R) n k : (k < n)%nat -> nth k (firstn n l) 0 = nth k l 0.
Proof. revert n k. induction l as [|x l IH]; intros [|n] [|k] H; cbn [firstn nth]; try lia; try easy. apply IH. lia. Qed.
Lemma nth_skipn (l : list R) n k : nth k (skipn n l) 0 = nth (n + k) l 0.
Proof. revert l. induction n as [|n IH]; intros l; [reflexivity|]. destruct l as [|x l]; [cbn [skipn nth]; now destruct k|]. cbn [skipn Nat.add nth]. apply IH. Qed.

Theorem C49_increment ndim xs ws fs dfs refs q dw dx : length refs = length fs -> quad_residual_and_jacobian (NodesNd ndim xs) ws fs dfs refs = Ok q ->
  quad_gauss_newton_increment q = Ok (dw, dx) ->
  length dw = length xs /\ length dx = ndim /\ Forall (fun r => length r = length xs) dx
  /\ forall dw' dx',
     rsum (fun i => linearised q ndim (length xs) (fun j => nth j dw 0) (fun a j => nth j (nth a dx []) 0) i ^ 2) (length fs)
     <= rsum (fun i => linearised q ndim (length xs) dw' dx' i ^ 2) (length fs).
Proof.
  intros LR H G. destruct (C49_shapes_and_entries _ _ _ _ _ _ _ LR H) as (LW & LD & LRes & R1 & C1 & R2 & C2 & _). set (n := length xs) in *. set (m := length fs) in *.
  unfold quad_gauss_newton_increment in G. cbn [hstack] in G. unfold hstack2 in G. cbn [bind] in G. rewrite R1, R2, Nat.eqb_refl in G. cbn [bind] in G.
  set (J := mkMat m (ncols (dresid_dweights q) + ncols (dresid_dnodes q)) (fun i j => if (j <? ncols (dresid_dweights q))%nat then ent (dresid_dweights q) i j else ent (dresid_dnodes q) i (j - ncols (dresid_dweights q)))) in *.
  destruct (np_lstsq J (residual q)) as [s|] eqn:ES; [|discriminate]. cbn [bind] in G. destruct (lstsq_spec _ _ _ ES) as (_ & LS & _ & OPT & _).
  cbn [J nrows ncols] in LS. rewrite C1 in G. unfold np_rows in G. rewrite skipn_length, map_length, LS, C1, C2 in G. replace (n + ndim * n - n)%nat with (ndim * n)%nat in G by lia.
  destruct (Nat.eqb_spec n 0) as [|N0]; [discriminate|]. rewrite Nat.mod_mul, Nat.eqb_refl, Nat.div_mul in G by easy. cbn [bind] in G.
  assert (dw = firstn n (map Ropp s)) as -> by congruence. assert (DX : dx = map (fun a => firstn n (skipn (a * n) (skipn n (map Ropp s)))) (seq 0 ndim)) by congruence. clear G.
  assert (LN : length (map Ropp s) = (n + ndim * n)%nat) by (rewrite map_length, LS, C1, C2; reflexivity).
  split; [rewrite firstn_length_le; lia|]. split; [subst dx; now rewrite map_length, seq_length|]. split.
  { subst dx. apply Forall_map, Forall_forall. intros a Ha. apply in_seq in Ha. rewrite firstn_length_le; [easy|]. rewrite !skipn_length, LN. nia. }
  assert (NO : forall k, nth k (map Ropp s) 0 = - nth k s 0).
  { intros k. rewrite <- (map_nth Ropp s 0 k). f_equal. ring. }
  assert (JS : forall y i, rsum (fun l => ent J i l * y l) (ncols J) - nth i (residual q) 0
            = - linearised q ndim n (fun j => - y j) (fun a j => - y (n + (a * n + j))%nat) i).
  { intros y i. cbn [J ncols ent]. rewrite C1, C2. rewrite rsum_app. rewrite rsum_mul. unfold linearised.
    rewrite (rsum_ext (fun k => (if (k <? n)%nat then ent (dresid_dweights q) i k else ent (dresid_dnodes q) i (k - n)) * y k) (fun j => - (ent (dresid_dweights q) i j * - y j))).
    2:{ intros k Hk. destruct (Nat.ltb_spec k n); [ring|lia]. }
    rewrite (rsum_ext (fun a => rsum (fun j => (if (n + (a * n + j) <? n)%nat then ent (dresid_dweights q) i (n + (a * n + j)) else ent (dresid_dnodes q) i (n + (a * n + j) - n)) * y (n + (a * n + j))%nat) n)
              (fun a => - rsum (fun j => ent (dresid_dnodes q) i (a * n + j) * - y (n + (a * n + j))%nat) n)).
    2:{ intros a Ha. rewrite <- rsum_opp. apply rsum_ext. intros j Hj. destruct (Nat.ltb_spec (n + (a * n + j)) n); [lia|]. replace (n + (a * n + j) - n)%nat with (a * n + j)%nat by lia. ring. }
    rewrite !rsum_opp. ring. }
  intros dw' dx'.
  specialize (OPT (fun l => if (l <? n)%nat then - dw' l else - dx' ((l - n) / n)%nat ((l - n) mod n)%nat)).
  replace (nrows J) with m in OPT by reflexivity.
  rewrite (rsum_ext (fun i => (rsum (fun l => ent J i l * nth l s 0) (ncols J) - nth i (residual q) 0) ^ 2)
    (fun i => linearised q ndim n (fun j => nth j (firstn n (map Ropp s)) 0) (fun a j => nth j (nth a dx []) 0) i ^ 2)) in OPT.
  2:{ intros i Hi. rewrite (JS (fun l => nth l s 0)). rewrite <- Rsqr_pow2, <- Rsqr_neg, Rsqr_pow2. f_equal. unfold linearised. f_equal; [f_equal|].
      - apply rsum_ext. intros j Hj. rewrite nth_firstn, NO by easy. reflexivity.
      - apply rsum_ext. intros a Ha. apply rsum_ext. intros j Hj. f_equal. subst dx.
        rewrite (nth_indep _ [] (firstn n (skipn (0 * n) (skipn n (map Ropp s))))) by (rewrite map_length, seq_length; lia).
        rewrite (map_nth (fun a => firstn n (skipn (a * n) (skipn n (map Ropp s)))) (seq 0 ndim) 0%nat a), seq_nth by easy. cbn [Nat.add].
        rewrite nth_firstn, !nth_skipn, NO by easy. reflexivity. }
  rewrite (rsum_ext (fun i => (rsum (fun l => ent J i l * (if (l <? n)%nat then - dw' l else - dx' ((l - n) / n)%nat ((l - n) mod n)%nat)) (ncols J) - nth i (residual q) 0) ^ 2)
    (fun i => linearised q ndim n dw' dx' i ^ 2)) in OPT; [exact OPT|].
  intros i Hi. rewrite (JS (fun l => if (l <? n)%nat then - dw' l else - dx' ((l - n) / n)%nat ((l - n) mod n)%nat)). rewrite <- Rsqr_pow2, <- Rsqr_neg, Rsqr_pow2. f_equal. unfold linearised. f_equal; [f_equal|].
  - apply rsum_ext. intros j Hj. destruct (Nat.ltb_spec j n); [ring|lia].
  - apply rsum_ext. intros a Ha. apply rsum_ext. intros j Hj. destruct (Nat.ltb_spec (n + (a * n + j)) n); [lia|].
    replace (n + (a * n + j) - n)%nat with (j + a * n)%nat by lia. rewrite Nat.div_add, Nat.mod_add, Nat.div_small, Nat.mod_small by lia. cbn [Nat.add]. ring.
Qed.
(** An exact rule is a fixed point up to steps that leave the linearised error at zero; if the linearised system can be solved, the step solves it. *)
Theorem C49_increment_solves ndim xs ws fs dfs refs q dw dx dw' dx' : length refs = length fs -> quad_residual_and_jacobian (NodesNd ndim xs) ws fs dfs refs = Ok q ->
  quad_gauss_newton_increment q = Ok (dw, dx) ->
  (forall i, (i < length fs)%nat -> linearised q ndim (length xs) dw' dx' i = 0) ->
  forall i, (i < length fs)%nat -> linearised q ndim (length xs) (fun j => nth j dw 0) (fun a j => nth j (nth a dx []) 0) i = 0.
Proof.
  intros LR H G Z. destruct (C49_increment _ _ _ _ _ _ _ _ _ LR H G) as (_ & _ & _ & OPT).
  apply (sumsq_0 (fun i => linearised q ndim (length xs) (fun j => nth j dw 0) (fun a j => nth j (nth a dx []) 0) i)).
  eapply Rle_trans; [apply (OPT dw' dx')|]. right. apply rsum_0. intros i Hi. rewrite Z by easy. ring.
Qed.
(** Success *)
Theorem C49_succeeds ndim xs ws fs dfs refs : (0 < ndim)%nat -> xs <> [] -> length refs = length fs -> length ws = length xs -> length dfs = ndim ->
  Forall (fun ax => length ax = length fs) dfs -> defined_on fs xs -> Forall (fun ax => defined_on ax xs) dfs ->
  exists q dw dx, quad_residual_and_jacobian (NodesNd ndim xs) ws fs dfs refs = Ok q /\ quad_gauss_newton_increment q = Ok (dw, dx).
Proof.
  intros Hn HX LR LW LD LA DF DD.
  assert (exists q, quad_residual_and_jacobian (NodesNd ndim xs) ws fs dfs refs = Ok q) as [q H].
  { unfold quad_residual_and_jacobian. rewrite LD, Nat.eqb_refl. cbn [negb].
    replace (existsb _ dfs) with false.
    2:{ symmetry. apply not_true_iff_false. intros E. apply existsb_exists in E. destruct E as (ax & HI & E). rewrite Forall_forall in LA. rewrite (LA ax HI), Nat.eqb_refl in E. discriminate. }
    destruct (vandermonde_succeeds _ _ DF) as [A EA]. rewrite EA. cbn [bind]. destruct (vandermonde_inv _ _ _ EA) as (RA & CA & _).
    unfold np_matvec. cbn [mT nrows ncols]. rewrite RA, LW, Nat.eqb_refl. cbn [bind]. unfold np_vsub. rewrite map_length, seq_length, CA, LR, Nat.eqb_refl. cbn [bind].
    destruct (mapM_succeeds (fun ax => let* v := vandermonde ax xs in mscale_cols (mT v) ws) dfs) as [bl EB].
    { intros ax HI. rewrite Forall_forall in DD. destruct (vandermonde_succeeds _ _ (DD ax HI)) as [W EW]. rewrite EW. cbn [bind]. destruct (vandermonde_inv _ _ _ EW) as (RW & CW & _).
      unfold mscale_cols. cbn [mT ncols]. rewrite RW, LW, Nat.eqb_refl. eauto. }
    rewrite EB. cbn [bind]. destruct (mapM_nth _ dfs bl [] (meye 0) EB) as [LB NB].
    assert (HB : Forall (fun B => nrows B = length fs) bl).
    { apply Forall_forall. intros B HB. destruct (In_nth bl B (meye 0) HB) as (a & Ha & <-). specialize (NB a ltac:(lia)). destruct (vandermonde (nth a dfs []) xs) as [W|] eqn:EW; [|discriminate]. cbn [bind] in NB.
      destruct (vandermonde_inv _ _ _ EW) as (RW & CW & _). unfold mscale_cols in NB. cbn [mT ncols nrows] in NB. rewrite RW, LW, Nat.eqb_refl in NB.
      match type of NB with Ok ?v = _ => assert (nth a bl (meye 0) = v) as -> by congruence end. cbn [nrows]. rewrite CW. rewrite Forall_forall in LA. apply LA, nth_In. lia. }
    assert (HS : exists dn, hstack bl = Ok dn /\ nrows dn = length fs).
    { assert (NE : bl <> []) by (intros ->; cbn [length] in LB; lia). clear - HB NE. induction bl as [|B bl IH]; [easy|]. inversion HB; subst. destruct bl as [|B' bl]; [exists B; split; [reflexivity|easy]|].
      destruct IH as (dn & E & R); [easy|easy|]. change (hstack (B :: B' :: bl)) with (let* D := hstack (B' :: bl) in hstack2 B D). rewrite E. cbn [bind]. unfold hstack2.
      replace (nrows B =? nrows dn)%nat with true by (symmetry; apply Nat.eqb_eq; congruence). eexists. split; [reflexivity|easy]. }
    destruct HS as (dn & -> & _). cbn [bind]. eauto. }
  destruct (C49_shapes_and_entries _ _ _ _ _ _ _ LR H) as (_ & _ & LRes & R1 & C1 & R2 & C2 & _).
  exists q. unfold quad_gauss_newton_increment. cbn [hstack bind]. unfold hstack2. rewrite R1, R2, Nat.eqb_refl. cbn [bind]. unfold np_lstsq. cbn [nrows ncols]. rewrite LRes, Nat.eqb_refl. cbn [bind].
  unfold np_rows. rewrite skipn_length, !map_length, seq_length, C1, C2. replace (length xs + ndim * length xs - length xs)%nat with (ndim * length xs)%nat by lia.
  destruct (Nat.eqb_spec (length xs) 0) as [Z|NZ]; [destruct xs; [easy|discriminate]|]. rewrite Nat.mod_mul, Nat.eqb_refl by easy. cbn [bind]. eauto.
Qed.

(** ** Instances: integrands 1 and x on one node per end of an interval *)
Definition ex_fs : list (list R -> res R) := [(fun _ => Ok 1); (fun x => Ok (nth 0 x 0))].
Definition ex_dfs : list (list (list R -> res R)) := [[(fun _ => Ok 0); (fun _ => Ok 1)]].
Definition ex_xs : list (list R) := [[-1]; [1]].
Example C49_example_derivatives : derivatives_ok ex_fs ex_dfs ex_xs.
Proof.
  intros a i x Ha Hi HX. cbn [ex_dfs length] in Ha. assert (a = 0)%nat as -> by lia. cbn [ex_fs length] in Hi.
  assert (exists y, x = [y]) as [y ->] by (destruct HX as [<-|[<-|[]]]; eauto). cbn [nth upd]. assert (i = 0 \/ i = 1)%nat as [-> | ->] by lia; unfold fn, valR; cbn [ex_fs ex_dfs nth upd].
  - apply (is_derive_const (V := R_NormedModule)).
  - apply (is_derive_id (K := R_AbsRing)).
Qed.
Example C49_example : exists q dw dx, quad_residual_and_jacobian (NodesNd 1 ex_xs) [1; 1] ex_fs ex_dfs [2; 0] = Ok q /\ quad_gauss_newton_increment q = Ok (dw, dx)
  /\ rule_exact ex_fs ex_xs [1; 1] [2; 0].
Proof.
  destruct (C49_succeeds 1 ex_xs [1; 1] ex_fs ex_dfs [2; 0]) as (q & dw & dx & H1 & H2); try reflexivity; try easy.
  - lia.
  - repeat constructor.
  - intros f x [<-|[<-|[]]] _; eauto.
  - repeat constructor. intros f x [<-|[<-|[]]] _; eauto.
  - exists q, dw, dx. split; [easy|]. split; [easy|]. intros i Hi. cbn [ex_fs length] in Hi. assert (i = 0 \/ i = 1)%nat as [-> | ->] by lia; unfold fn, valR; cbn; ring.
Qed.
Example C50_example : unisolvent ex_fs ex_xs /\ exists r, find_weights ex_fs (NodesFlat [-1; 1]) [2; 0] = Ok r.
Proof.
  split.
  - split; [reflexivity|]. intros c Hc k Hk. cbn [ex_fs length] in Hk.
    pose proof (Hc [-1] (or_introl eq_refl)) as E1. pose proof (Hc [1] (or_intror (or_introl eq_refl))) as E2. unfold lin, fn, valR in E1, E2. cbn [ex_fs length rsum nth] in E1, E2.
    assert (k = 0 \/ k = 1)%nat as [-> | ->] by lia; lra.
  - apply C50_succeeds; [|reflexivity]. intros f x [<-|[<-|[]]] _; eauto.
Qed.
Print Assumptions C49_shapes_and_entries.
Print Assumptions C49_node_jacobian.
Print Assumptions C49_increment.
Print Assumptions C50_weights.
Print Assumptions C50_square.
Print Assumptions C50_warning_refuted.
