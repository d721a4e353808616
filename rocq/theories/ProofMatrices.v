(** * Vandermonde-based operators (C26-C29) *)
From Coquelicot Require Import Coquelicot.
From Coq Require Import List Arith Bool ZArith Reals Lra Lia.
From Verif Require Import Py PyToolsModel RSum RField ModelLinAlg ProofLinAlg ModelModes ModelBasis ModelQuad
  ModelMatrices EnumFacts SpecPartial SpecSpan.
Import ListNotations.
Local Open Scope R_scope.

(** ** rsum algebra *)
Lemma rsum_assoc (A B : nat -> nat -> R) (c : nat -> R) i m n :
  rsum (fun k => A i k * rsum (fun l => B k l * c l) n) m
  = rsum (fun l => rsum (fun k => A i k * B k l) m * c l) n.
Proof.
  rewrite (rsum_ext _ (fun k => rsum (fun l => A i k * B k l * c l) n)).
  2:{ intros k _. rewrite <- rsum_scal. apply rsum_ext. intros; ring. }
  rewrite rsum_swap. apply rsum_ext. intros l _. now rewrite rsum_scal_r.
Qed.
Lemma rsum_delta c i n : (i < n)%nat -> rsum (fun k => delta i k * c k) n = c i.
Proof.
  intros H. rewrite (rsum_single _ n i H).
  - unfold delta. rewrite Nat.eqb_refl. ring.
  - intros j Hj Hne. unfold delta. destruct (Nat.eqb_spec i j); [congruence|ring].
Qed.
Lemma rsum_delta_r c i n : (i < n)%nat -> rsum (fun k => c k * delta k i) n = c i.
Proof.
  intros H. rewrite (rsum_single _ n i H).
  - unfold delta. rewrite Nat.eqb_refl. ring.
  - intros j Hj Hne. unfold delta. destruct (Nat.eqb_spec j i); [congruence|ring].
Qed.
Lemma rsum_opp f n : rsum (fun k => - f k) n = - rsum f n.
Proof. induction n; cbn [rsum]; [ring|rewrite IHn; ring]. Qed.
(** nonsingular matrices cancel *)
Lemma nonsing_cancel n A x y : nonsing n A ->
  (forall i, (i < n)%nat -> rsum (fun k => A i k * x k) n = rsum (fun k => A i k * y k) n) ->
  forall k, (k < n)%nat -> x k = y k.
Proof.
  intros HA E k Hk. apply Rminus_diag_uniq. apply (HA (fun k => x k - y k)); [|easy].
  intros i Hi. rewrite (rsum_ext _ (fun k => A i k * x k - A i k * y k)) by (intros; ring).
  rewrite rsum_minus, E by easy. ring.
Qed.
Lemma inj_cols_cancel m n A x y : inj_cols m n A ->
  (forall i, (i < m)%nat -> rsum (fun k => A i k * x k) n = rsum (fun k => A i k * y k) n) ->
  forall k, (k < n)%nat -> x k = y k.
Proof.
  intros HA E k Hk. apply Rminus_diag_uniq. apply (HA (fun k => x k - y k)); [|easy].
  intros i Hi. rewrite (rsum_ext _ (fun k => A i k * x k - A i k * y k)) by (intros; ring).
  rewrite rsum_minus, E by easy. ring.
Qed.

(** ** vandermonde *)
Definition V (fs : list (list R -> res R)) (xs : list (list R)) : nat -> nat -> R :=
  fun i j => fn fs j (pt xs i).

Lemma mapM_vals f xs vs : mapM f xs = Ok vs ->
  length vs = length xs /\ forall i, (i < length xs)%nat -> nth i vs 0 = valR f (pt xs i).
Proof.
  revert vs. induction xs as [|x xs IH]; intros vs E; cbn [mapM] in E.
  - injection E as <-. split; [easy|]. cbn; lia.
  - destruct (f x) as [v|] eqn:Ev; [|discriminate]. cbn [bind] in E.
    destruct (mapM f xs) as [vs'|]; [|discriminate]. injection E as <-.
    destruct (IH _ eq_refl) as [L H]. split; [cbn; congruence|].
    intros [|i] Hi; cbn [nth pt]; [unfold valR, pt; cbn [nth]; now rewrite Ev|].
    apply H. cbn in Hi; lia.
Qed.
Lemma vandermonde_inv fs xs A : vandermonde fs xs = Ok A ->
  nrows A = length xs /\ ncols A = length fs
  /\ (forall i j, (i < length xs)%nat -> (j < length fs)%nat -> ent A i j = V fs xs i j)
  /\ defined_on fs xs.
Proof.
  unfold vandermonde. destruct (mapM (fun f => mapM f xs) fs) as [cols|] eqn:E; [|discriminate].
  cbn [bind]. intros H. injection H as <-. cbn [nrows ncols ent mat_of_cols].
  split; [easy|]. split; [easy|].
  assert (HH : forall j, (j < length fs)%nat -> mapM (nth j fs (fun _ => Err IndexError)) xs = Ok (nth j cols [])).
  { clear -E. revert cols E. induction fs as [|f fs IH]; intros cols E j Hj; [cbn in Hj; lia|].
    cbn [mapM] in E. destruct (mapM f xs) as [c|] eqn:Ec; [|discriminate]. cbn [bind] in E.
    destruct (mapM (fun f => mapM f xs) fs) as [cols'|]; [|discriminate]. injection E as <-.
    destruct j as [|j]; cbn [nth]; [easy|]. apply IH; [easy|cbn in Hj; lia]. }
  split.
  - intros i j Hi Hj. destruct (mapM_vals _ _ _ (HH j Hj)) as [_ H]. now apply H.
  - intros f x Hf Hx. destruct (In_nth fs f (fun _ => Err IndexError) Hf) as (j & Hj & <-).
    specialize (HH j Hj). revert Hx HH. generalize (nth j cols []). induction xs as [|y xs IH]; intros vs Hx HH; [easy|].
    cbn [mapM] in HH. destruct (nth j fs (fun _ => Err IndexError) y) as [v|] eqn:Ev; [|discriminate].
    cbn [bind] in HH. destruct (mapM (nth j fs (fun _ => Err IndexError)) xs) as [vs'|] eqn:Evs; [|discriminate].
    destruct Hx as [->|Hx]; [eauto|].
    clear -Hx Evs. revert vs' Evs. induction xs as [|z xs IH]; intros vs' Evs; [easy|].
    cbn [mapM] in Evs. destruct (nth j fs (fun _ => Err IndexError) z) as [w|] eqn:Ew; [|discriminate].
    cbn [bind] in Evs. destruct (mapM (nth j fs (fun _ => Err IndexError)) xs) as [vs''|] eqn:Evs'; [|discriminate].
    destruct Hx as [->|Hx]; [eauto|]. eapply IH; eauto.
Qed.
Lemma mapM_succeeds {A B} (f : A -> res B) xs : (forall x, In x xs -> exists v, f x = Ok v) ->
  exists vs, mapM f xs = Ok vs.
Proof.
  induction xs as [|x xs IH]; intros H; [now exists []|].
  destruct (H x (or_introl eq_refl)) as (v & E). destruct IH as (vs & Evs); [intros; apply H; now right|].
  exists (v :: vs). cbn [mapM]. rewrite E. cbn [bind]. rewrite Evs. reflexivity.
Qed.
Lemma vandermonde_succeeds fs xs : defined_on fs xs -> exists A, vandermonde fs xs = Ok A.
Proof.
  intros H. unfold vandermonde.
  destruct (mapM_succeeds (fun f => mapM f xs) fs) as (cols & E).
  - intros f Hf. apply mapM_succeeds. intros x Hx. now apply H.
  - rewrite E. cbn [bind]. eauto.
Qed.
Lemma lin_V fs xs c i : rsum (fun j => V fs xs i j * c j) (length fs) = lin fs c (pt xs i).
Proof. unfold lin, V. apply rsum_ext. intros; ring. Qed.
Lemma pt_in xs i : (i < length xs)%nat -> In (pt xs i) xs.
Proof. intros H. now apply nth_In. Qed.
Lemma in_pt xs x : In x xs -> exists i, (i < length xs)%nat /\ x = pt xs i.
Proof. intros H. destruct (In_nth xs x [] H) as (i & Hi & E). eauto. Qed.
Lemma independent_inj fs xs : independent_on fs xs <-> inj_cols (length xs) (length fs) (V fs xs).
Proof.
  unfold independent_on, inj_cols. split; intros H c Hc.
  - apply H. intros x Hx. destruct (in_pt xs x Hx) as (i & Hi & ->). rewrite <- lin_V. now apply Hc.
  - apply H. intros i Hi. rewrite lin_V. now apply Hc, pt_in.
Qed.
Lemma nonsing_V fs xs A : vandermonde fs xs = Ok A -> length fs = length xs ->
  nonsing (nrows A) (ent A) <-> independent_on fs xs.
Proof.
  intros E L. destruct (vandermonde_inv _ _ _ E) as (R1 & C1 & H & _). rewrite independent_inj, R1, L.
  split; apply nonsing_ext; intros i j Hi Hj; [|symmetry]; apply H; congruence.
Qed.

(** ** Resampling *)
Lemma mdot_resample A n : ncols A = n -> exists B,
  mdot A (mslice (ncols A) n (meye (Nat.max n (ncols A)))) = Ok B
  /\ nrows B = nrows A /\ ncols B = ncols A
  /\ forall i j, (j < ncols A)%nat -> ent B i j = ent A i j.
Proof.
  intros <-. unfold mdot, mslice, meye. cbn [nrows ncols ent].
  rewrite Nat.max_id, !Nat.min_id, Nat.eqb_refl.
  eexists. split; [reflexivity|]. cbn [nrows ncols ent]. split; [easy|]. split; [easy|].
  intros i j Hj. exact (rsum_delta_r (fun k => ent A i k) j _ Hj).
Qed.

Lemma resampling_square fs new old ls M : length fs = length old ->
  resampling_matrix fs new old ls = Ok M ->
  nrows M = length new /\ ncols M = length old /\ defined_on fs new /\ defined_on fs old
  /\ independent_on fs old
  /\ forall i j, (i < length new)%nat -> (j < length fs)%nat ->
       rsum (fun k => ent M i k * V fs old k j) (length old) = V fs new i j.
Proof.
  intros L. unfold resampling_matrix.
  destruct (vandermonde fs old) as [A|] eqn:EA; [|discriminate]. cbn [bind].
  destruct (vandermonde fs new) as [B|] eqn:EB; [|discriminate]. cbn [bind].
  destruct (vandermonde_inv _ _ _ EA) as (RA & CA & HA & DA).
  destruct (vandermonde_inv _ _ _ EB) as (RB & CB & HB & DB).
  destruct (mdot_resample B (length fs) CB) as (B' & E' & RB' & CB' & HB'). rewrite E'. cbn [bind].
  rewrite RA, CA, L, Nat.eqb_refl.
  destruct (np_solve (mT A) (mT B')) as [X|] eqn:EX; [|discriminate]. cbn [bind]. intros H. injection H as <-.
  destruct (np_solve_ok EX) as (S1 & S2 & S3 & S4 & S5 & S6). cbn [mT nrows ncols ent] in *.
  split; [congruence|]. split; [congruence|]. split; [easy|]. split; [easy|]. split.
  - apply (nonsing_V fs old A EA L). rewrite S1 in S5. apply nonsing_tr in S5. exact S5.
  - intros i j Hi Hj. rewrite <- HB, <- HB' by congruence.
    rewrite <- (S6 j i) by congruence. rewrite CA, L. apply rsum_ext. intros k Hk.
    rewrite HA by lia. ring.
Qed.
Lemma resampling_succeeds fs new old ls : defined_on fs new -> defined_on fs old -> unisolvent fs old ->
  exists M, resampling_matrix fs new old ls = Ok M.
Proof.
  intros DN DO [L HU]. unfold resampling_matrix.
  destruct (vandermonde_succeeds _ _ DO) as (A & EA). destruct (vandermonde_succeeds _ _ DN) as (B & EB).
  rewrite EA, EB. cbn [bind].
  destruct (vandermonde_inv _ _ _ EA) as (RA & CA & HA & DA).
  destruct (vandermonde_inv _ _ _ EB) as (RB & CB & HB & DB).
  destruct (mdot_resample B (length fs) CB) as (B' & E' & RB' & CB' & HB'). rewrite E'. cbn [bind].
  rewrite RA, CA, L, Nat.eqb_refl.
  destruct (np_solve_succeeds (A := mT A) (B := mT B')) as (X & EX).
  - cbn [mT nrows ncols]. congruence.
  - cbn [mT nrows ncols]. congruence.
  - cbn [mT nrows ncols ent]. rewrite CA, L. rewrite <- RA. apply nonsing_tr. apply (nonsing_V _ _ _ EA L). easy.
  - rewrite EX. cbn [bind]. eauto.
Qed.

Lemma span_exact (fs : list (list R -> res R)) M (V1 V2 : nat -> nat -> R) c i n m :
  (forall j, (j < n)%nat -> rsum (fun k => M i k * V1 k j) m = V2 i j) ->
  rsum (fun k => M i k * rsum (fun j => V1 k j * c j) n) m = rsum (fun j => V2 i j * c j) n.
Proof.
  intros H. rewrite rsum_assoc. apply rsum_ext. intros j Hj. now rewrite H.
Qed.

(** two matrices that agree on the columns of a nonsingular V agree *)
Lemma agree_on_V n (M1 M2 : nat -> R) W : nonsing n W ->
  (forall j, (j < n)%nat -> rsum (fun k => M1 k * W k j) n = rsum (fun k => M2 k * W k j) n) ->
  forall k, (k < n)%nat -> M1 k = M2 k.
Proof.
  intros HW E. apply nonsing_tr in HW. apply (nonsing_cancel n _ M1 M2 HW).
  intros i Hi. transitivity (rsum (fun k => M1 k * W k i) n); [apply rsum_ext; intros; ring|].
  rewrite E by easy. apply rsum_ext; intros; ring.
Qed.

(** ** Least squares *)
Lemma resampling_ls fs new old M : length fs <> length old ->
  resampling_matrix fs new old true = Ok M ->
  nrows M = length new /\ ncols M = length old /\ defined_on fs new /\ defined_on fs old
  /\ exists A, vandermonde fs old = Ok A /\ forall i k, (i < length new)%nat -> (k < length old)%nat ->
       ent M i k = rsum (fun j => V fs new i j * ent (np_pinv A) j k) (length fs).
Proof.
  intros L. unfold resampling_matrix.
  destruct (vandermonde fs old) as [A|] eqn:EA; [|discriminate]. cbn [bind].
  destruct (vandermonde fs new) as [B|] eqn:EB; [|discriminate]. cbn [bind].
  destruct (vandermonde_inv _ _ _ EA) as (RA & CA & HA & DA).
  destruct (vandermonde_inv _ _ _ EB) as (RB & CB & HB & DB).
  destruct (mdot_resample B (length fs) CB) as (B' & E' & RB' & CB' & HB'). rewrite E'. cbn [bind].
  replace (nrows A =? ncols A)%nat with false by (symmetry; apply Nat.eqb_neq; congruence).
  unfold mdot. cbn [np_pinv nrows ncols]. rewrite CB', CB, CA, Nat.eqb_refl. intros H. injection H as <-.
  cbn [nrows ncols ent]. split; [congruence|]. split; [congruence|]. split; [easy|]. split; [easy|].
  exists A. split; [easy|]. intros i k Hi Hk. apply rsum_ext. intros j Hj. rewrite HB', HB by congruence. reflexivity.
Qed.
(** a least-squares solution has normal equations; pinv satisfies them *)
Lemma pinv_normal A u (m := nrows A) (n := ncols A)
  (c := fun j => rsum (fun k => ent (np_pinv A) j k * u k) m) :
  forall j, (j < n)%nat -> rsum (fun i => ent A i j * (rsum (fun l => ent A i l * c l) n - u i)) m = 0.
Proof.
  intros j Hj. destruct (np_pinv_penrose A) as (P1 & _ & P3 & _). fold m n in P1, P3.
  rewrite (rsum_ext _ (fun i => ent A i j * rsum (fun l => ent A i l * c l) n - ent A i j * u i)) by (intros; ring).
  rewrite rsum_minus. apply Rminus_diag_eq.
  (* A^T A P u = A^T (AP)^T u = (A P A)^T u = A^T u *)
  transitivity (rsum (fun i => ent A i j * rsum (fun k => prodf n (ent A) (ent (np_pinv A)) k i * u k) m) m).
  { apply rsum_ext. intros i Hi. f_equal. unfold c.
    rewrite (rsum_assoc (fun i l => ent A i l) (fun l k => ent (np_pinv A) l k) u i n m).
    apply rsum_ext. intros k Hk. f_equal. apply (P3 i k); easy. }
  transitivity (rsum (fun k => rsum (fun i => ent A i j * prodf n (ent A) (ent (np_pinv A)) k i) m * u k) m).
  { rewrite <- (rsum_assoc (fun j i => ent A i j) (fun i k => prodf n (ent A) (ent (np_pinv A)) k i) u j m m). reflexivity. }
  apply rsum_ext. intros k Hk. f_equal. rewrite <- (P1 k j) by easy. apply rsum_ext. intros; ring.
Qed.
Lemma normal_optimal m n (A : nat -> nat -> R) (u c d : nat -> R) :
  (forall j, (j < n)%nat -> rsum (fun i => A i j * (rsum (fun l => A i l * c l) n - u i)) m = 0) ->
  rsum (fun i => (rsum (fun l => A i l * c l) n - u i) ^ 2) m
  <= rsum (fun i => (rsum (fun l => A i l * d l) n - u i) ^ 2) m.
Proof.
  intros H. set (r := fun i => rsum (fun l => A i l * c l) n - u i).
  set (e := fun i => rsum (fun l => A i l * (d l - c l)) n).
  assert (E : forall i, rsum (fun l => A i l * d l) n - u i = r i + e i).
  { intros i. unfold r, e. rewrite (rsum_ext (fun l => A i l * (d l - c l)) (fun l => A i l * d l - A i l * c l)) by (intros; ring).
    rewrite rsum_minus. ring. }
  assert (X : rsum (fun i => r i * e i) m = 0).
  { unfold e. rewrite (rsum_ext _ (fun i => rsum (fun l => r i * A i l * (d l - c l)) n)).
    2:{ intros i _. rewrite <- rsum_scal. apply rsum_ext; intros; ring. }
    rewrite rsum_swap. apply rsum_0. intros l Hl. rewrite rsum_scal_r.
    rewrite (rsum_ext _ (fun i => A i l * r i)) by (intros; ring). unfold r. rewrite H by easy. ring. }
  rewrite (rsum_ext (fun i => (rsum (fun l => A i l * d l) n - u i) ^ 2)
             (fun i => r i ^ 2 + (2 * (r i * e i) + e i ^ 2))).
  2:{ intros i _. rewrite E. ring. }
  rewrite rsum_plus, rsum_plus, rsum_scal, X.
  assert (P : 0 <= rsum (fun i => e i ^ 2) m).
  { clear. induction m; cbn [rsum]; [lra|]. pose proof (pow2_ge_0 (e m)). lra. }
  unfold r. lra.
Qed.
