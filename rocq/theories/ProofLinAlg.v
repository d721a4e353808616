(** * Facts about the linear algebra model, stated with finite sums *)
From Coq Require Import Reals Lra Lia.
From mathcomp Require Import all_ssreflect all_algebra.
From Verif Require Import RField Py RSum ModelLinAlg.
Set Implicit Arguments.
Unset Strict Implicit.
Unset Printing Implicit Defensive.
Local Open Scope ring_scope.

Lemma big_rsum n (f : nat -> RR) : \sum_(k < n) f k = rsum f n.
Proof.
  elim: n => [|n IH]; first by rewrite big_ord0.
  by rewrite big_ord_recr /= IH.
Qed.

Lemma ofME m n (A : 'M[RR]_(m, n)) (i : 'I_m) (j : 'I_n) : ofM A i j = A i j.
Proof. by rewrite /ofM !valK. Qed.
Lemma ofM_toM m n f i j : (i < m)%coq_nat -> (j < n)%coq_nat -> ofM (toM m n f) i j = f i j.
Proof.
  move=> /ltP hi /ltP hj. by rewrite -[i]/(val (Ordinal hi)) -[j]/(val (Ordinal hj)) ofME mxE.
Qed.
Lemma toM_ofM m n (A : 'M[RR]_(m, n)) : toM m n (ofM A) = A.
Proof. by apply/matrixP => i j; rewrite mxE ofME. Qed.
Lemma toM_eq m n f g : (forall i j, (i < m)%coq_nat -> (j < n)%coq_nat -> f i j = g i j) -> toM m n f = toM m n g.
Proof. by move=> h; apply/matrixP => i j; rewrite !mxE; apply: h; apply/ltP. Qed.
Lemma toM_inj m n f g : toM m n f = toM m n g ->
  forall i j, (i < m)%coq_nat -> (j < n)%coq_nat -> f i j = g i j.
Proof. by move=> h i j hi hj; rewrite -(ofM_toM f hi hj) h ofM_toM. Qed.
Lemma toM_mul m k n f g : toM m k f *m toM k n g = toM m n (fun i j => rsum (fun l => Rmult (f i l) (g l j)) k).
Proof.
  apply/matrixP => i j; rewrite !mxE -big_rsum. by apply: eq_bigr => l _; rewrite !mxE.
Qed.
Lemma toM_tr m n f : (toM m n f)^T = toM n m (fun i j => f j i).
Proof. by apply/matrixP => i j; rewrite !mxE. Qed.
Lemma toM_1 n : toM n n (fun i j => if Nat.eqb i j then R1 else R0) = 1%:M.
Proof.
  apply/matrixP => i j; rewrite !mxE.
  case: (Nat.eqb_spec i j) => h.
  - have -> : i = j by apply: val_inj. by rewrite eqxx.
  - have /negbTE -> : i != j by apply/eqP => e; apply: h; rewrite e. by [].
Qed.
Lemma toM_0 m n : toM m n (fun _ _ => R0) = 0.
Proof. by apply/matrixP => i j; rewrite !mxE. Qed.

(** Nonsingularity: only the zero vector is mapped to zero. *)
Definition inj_cols (m n : nat) (A : nat -> nat -> RR) : Prop :=
  forall c : nat -> RR, (forall i, (i < m)%coq_nat -> rsum (fun k => Rmult (A i k) (c k)) n = R0) ->
  forall k, (k < n)%coq_nat -> c k = R0.
Definition nonsing (n : nat) (A : nat -> nat -> RR) : Prop := inj_cols n n A.

Lemma inj_colsP m n A : inj_cols m n A <-> (forall c : 'M[RR]_(n, 1), toM m n A *m c = 0 -> c = 0).
Proof.
  split.
  - move=> H c E. rewrite -[c]toM_ofM -(toM_0 n 1). apply: toM_eq => i j hi hj.
    have -> : j = O by apply/eqP; rewrite -leqn0 -ltnS; apply/ltP.
    apply: (H (fun k => ofM c k 0%N)) => // i' hi'.
    move: E. rewrite -[c]toM_ofM toM_mul -(toM_0 m 1) => /toM_inj E.
    have := E i' 0%N hi' ltac:(lia). move=> <-. apply: rsum_ext => k hk. by rewrite toM_ofM.
  - move=> H c E k hk.
    have Hz : toM n 1 (fun i _ => c i) = 0.
    { apply: H. rewrite toM_mul -(toM_0 m 1). apply: toM_eq => i j hi hj. exact: E. }
    move: Hz. rewrite -(toM_0 n 1) => /toM_inj Hz. exact: (Hz k 0%N hk ltac:(lia)).
Qed.
Lemma nonsing_unit n A : nonsing n A <-> toM n n A \in unitmx.
Proof.
  rewrite /nonsing inj_colsP. split.
  - move=> H. rewrite -unitmx_tr -row_free_unit. apply: inj_row_free => v Hv.
    apply: (can_inj (@trmxK _ _ _)). rewrite trmx0. apply: H.
    apply: (can_inj (@trmxK _ _ _)). by rewrite trmx_mul trmxK trmx0.
  - move=> H c E. by rewrite -[c](mulKmx H) E mulmx0.
Qed.
Lemma nonsing_tr n A : nonsing n A <-> nonsing n (fun i j => A j i).
Proof. by rewrite !nonsing_unit -toM_tr unitmx_tr. Qed.
Lemma nonsing_ext n A B : (forall i j, (i < n)%coq_nat -> (j < n)%coq_nat -> A i j = B i j) ->
  nonsing n A -> nonsing n B.
Proof. by move=> H; rewrite !nonsing_unit (toM_eq H). Qed.

Lemma np_solve_ok A B X : np_solve A B = Ok X ->
  nrows A = ncols A /\ nrows B = nrows A /\ nrows X = nrows A /\ ncols X = ncols B
  /\ nonsing (nrows A) (ent A)
  /\ forall i j, (i < nrows A)%coq_nat -> (j < ncols B)%coq_nat ->
       rsum (fun k => Rmult (ent A i k) (ent X k j)) (nrows A) = ent B i j.
Proof.
  rewrite /np_solve. case: (Nat.eqb_spec (nrows A) (ncols A)) => // h1.
  case: (Nat.eqb_spec (nrows B) (nrows A)) => // h2. case: ifP => // hu [] <- /=.
  do 4!split => //. split; first by apply/nonsing_unit. apply: toM_inj. rewrite -toM_mul toM_ofM. by rewrite mulKVmx.
Qed.
Lemma np_solve_succeeds A B : nrows A = ncols A -> nrows B = nrows A -> nonsing (nrows A) (ent A) ->
  exists X, np_solve A B = Ok X.
Proof.
  rewrite /np_solve => h1 h2 /nonsing_unit hu. rewrite -h1 h2 !PeanoNat.Nat.eqb_refl hu. by eexists.
Qed.
Lemma np_solve_singular A B : nrows A = ncols A -> nrows B = nrows A -> ~ nonsing (nrows A) (ent A) ->
  np_solve A B = Err LinAlgError.
Proof.
  rewrite /np_solve => h1 h2 /nonsing_unit hu. rewrite -h1 h2 !PeanoNat.Nat.eqb_refl. by case: ifP hu.
Qed.
Lemma np_inv_ok A X : np_inv A = Ok X ->
  nrows A = ncols A /\ nrows X = nrows A /\ ncols X = nrows A /\ nonsing (nrows A) (ent A)
  /\ (forall i j, (i < nrows A)%coq_nat -> (j < nrows A)%coq_nat ->
       rsum (fun k => Rmult (ent A i k) (ent X k j)) (nrows A) = if Nat.eqb i j then R1 else R0)
  /\ (forall i j, (i < nrows A)%coq_nat -> (j < nrows A)%coq_nat ->
       rsum (fun k => Rmult (ent X i k) (ent A k j)) (nrows A) = if Nat.eqb i j then R1 else R0).
Proof.
  rewrite /np_inv. case: (Nat.eqb_spec (nrows A) (ncols A)) => // h1. case: ifP => // hu [] <- /=.
  do 3!split => //. split; first by apply/nonsing_unit.
  split; apply: toM_inj; rewrite -toM_mul toM_ofM toM_1; [by rewrite mulmxV|by rewrite mulVmx].
Qed.
Lemma np_inv_succeeds A : nrows A = ncols A -> nonsing (nrows A) (ent A) -> exists X, np_inv A = Ok X.
Proof.
  rewrite /np_inv => h1 /nonsing_unit hu. rewrite -h1 !PeanoNat.Nat.eqb_refl hu. by eexists.
Qed.
Lemma np_inv_singular A : nrows A = ncols A -> ~ nonsing (nrows A) (ent A) -> np_inv A = Err LinAlgError.
Proof.
  rewrite /np_inv => h1 /nonsing_unit hu. rewrite -h1 !PeanoNat.Nat.eqb_refl. by case: ifP hu.
Qed.

(** ** Pseudo-inverse *)
Lemma sum_sq0 n (f : 'I_n -> RR) : \sum_i (f i * f i) = 0 -> forall i, f i = 0.
Proof.
  move=> H i.
  have P : forall (r : seq 'I_n), Rle R0 (\sum_(j <- r) (f j * f j)).
  { move=> r. elim: r => [|j r IH]; first by rewrite big_nil; apply: Rle_refl.
    rewrite big_cons. change (Rle R0 (Rplus (Rmult (f j) (f j)) (\sum_(j <- r) (f j * f j)))).
    have := Rle_0_sqr (f j). rewrite /Rsqr => ?. lra. }
  move: H. rewrite (bigD1 i) //= => H.
  have Q : Rle R0 (\sum_(j < n | j != i) f j * f j).
  { rewrite -big_filter. exact: P. }
  change (Rplus (Rmult (f i) (f i)) (\sum_(j < n | j != i) f j * f j) = R0) in H.
  have := Rle_0_sqr (f i). rewrite /Rsqr => S.
  apply: Rsqr_0_uniq. rewrite /Rsqr. lra.
Qed.
Lemma gram_unit m n (C : 'M[RR]_(m, n)) : (forall v : 'M[RR]_(n, 1), C *m v = 0 -> v = 0) -> C^T *m C \in unitmx.
Proof.
  move=> HC. have /nonsing_unit : nonsing n (ofM (C^T *m C)); last by rewrite toM_ofM.
  apply/inj_colsP; rewrite toM_ofM => v Hv. apply: HC.
  have E : (C *m v)^T *m (C *m v) = 0 by rewrite trmx_mul -mulmxA [_ *m (C *m v)]mulmxA Hv mulmx0.
  apply/matrixP => i j. rewrite [j]ord1 [RHS]mxE.
  move/matrixP/(_ 0 0): E. rewrite [LHS]mxE [RHS]mxE => E.
  apply: (@sum_sq0 m (fun i => (C *m v) i 0)).
  rewrite -[RHS]E. apply: eq_bigr => k _. by rewrite [_^T 0 k]mxE.
Qed.
Lemma col_base_inj m n (A : 'M[RR]_(m, n)) (v : 'M[RR]_(_, 1)) : col_base A *m v = 0 -> v = 0.
Proof.
  move=> H. have /row_fullP [B HB] := col_base_full A. by rewrite -[v]mul1mx -HB -mulmxA H mulmx0.
Qed.
Lemma row_base_inj m n (A : 'M[RR]_(m, n)) (v : 'M[RR]_(_, 1)) : (row_base A)^T *m v = 0 -> v = 0.
Proof.
  move=> H. have /row_freeP [B HB] := row_base_free A.
  have : (row_base A *m B)^T *m v = 0 by rewrite trmx_mul -mulmxA H mulmx0.
  by rewrite HB trmx1 mul1mx.
Qed.
Lemma penrose_cf m r n (A : 'M[RR]_(m, n)) (C : 'M[RR]_(m, r)) (F : 'M[RR]_(r, n)) :
  C^T *m C \in unitmx -> F *m F^T \in unitmx -> A = C *m F ->
  let P := F^T *m invmx (F *m F^T) *m (invmx (C^T *m C) *m C^T) in
  [/\ A *m P *m A = A, P *m A *m P = P, (A *m P)^T = A *m P & (P *m A)^T = P *m A].
Proof.
  move=> uC uF EA P.
  have E1 : A *m P = C *m (invmx (C^T *m C) *m C^T).
  { by rewrite /P EA -!mulmxA (mulmxA F) mulKVmx. }
  have E2 : P *m A = F^T *m invmx (F *m F^T) *m F.
  { by rewrite /P EA -!mulmxA (mulmxA (C^T)) mulKmx. }
  rewrite E1 E2. split.
  - by rewrite EA -!mulmxA (mulmxA (C^T)) mulKmx.
  - by rewrite /P -!mulmxA (mulmxA F) mulKVmx.
  - by rewrite !trmx_mul trmxK trmx_inv trmx_mul trmxK mulmxA.
  - by rewrite !trmx_mul trmxK trmx_inv trmx_mul trmxK mulmxA.
Qed.
Lemma mpinv_penrose m n (A : 'M[RR]_(m, n)) (P := mpinv A) :
  [/\ A *m P *m A = A, P *m A *m P = P, (A *m P)^T = A *m P & (P *m A)^T = P *m A].
Proof.
  apply: penrose_cf.
  - by apply: gram_unit; apply: col_base_inj.
  - have := @gram_unit _ _ ((row_base A)^T) (@row_base_inj _ _ A). by rewrite trmxK.
  - by rewrite mulmx_base.
Qed.

(** The four Penrose equations, entrywise. *)
Definition prodf (k : nat) (A B : nat -> nat -> RR) : nat -> nat -> RR :=
  fun i j => rsum (fun l => Rmult (A i l) (B l j)) k.
Lemma np_pinv_penrose A (m := nrows A) (n := ncols A) (a := ent A) (p := ent (np_pinv A)) :
  (forall i j, (i < m)%coq_nat -> (j < n)%coq_nat -> prodf m (prodf n a p) a i j = a i j)
  /\ (forall i j, (i < n)%coq_nat -> (j < m)%coq_nat -> prodf n (prodf m p a) p i j = p i j)
  /\ (forall i j, (i < m)%coq_nat -> (j < m)%coq_nat -> prodf n a p i j = prodf n a p j i)
  /\ (forall i j, (i < n)%coq_nat -> (j < n)%coq_nat -> prodf m p a i j = prodf m p a j i).
Proof.
  have [P1 P2 P3 P4] := mpinv_penrose (toM m n a).
  have EP : toM n m p = mpinv (toM m n a) by rewrite /p /= toM_ofM.
  rewrite -EP !toM_mul in P1 P2 P3 P4. rewrite !toM_tr in P3 P4.
  split; first by apply: toM_inj. split; first by apply: toM_inj.
  split.
  - apply: toM_inj. by rewrite -P3.
  - apply: toM_inj. by rewrite -P4.
Qed.

(** A one-sided inverse of a square matrix is two-sided. *)
Lemma inverse_swap n (A B : nat -> nat -> RR) :
  (forall i j, (i < n)%coq_nat -> (j < n)%coq_nat -> prodf n A B i j = if Nat.eqb i j then R1 else R0) ->
  (forall i j, (i < n)%coq_nat -> (j < n)%coq_nat -> prodf n B A i j = if Nat.eqb i j then R1 else R0).
Proof.
  move=> H. have E : toM n n A *m toM n n B = 1%:M by rewrite toM_mul -toM_1; apply: toM_eq.
  apply: toM_inj. rewrite -toM_mul toM_1. exact: mulmx1C.
Qed.
