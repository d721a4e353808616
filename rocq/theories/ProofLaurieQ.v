(** * Laurie's algorithm on rational numbers, to decide positivity for given n *)
From Coq Require Import List Arith Bool Reals Lra Lia QArith Qreals.
From Verif Require Import Py RSum ModelNd ModelKronrod.
Import ListNotations.
Local Open Scope R_scope.

Definition updQ (f : nat -> Q) (i : nat) (v : Q) : nat -> Q := fun j => if (j =? i)%nat then v else f j.
Definition qadd (a b : Q) : Q := Qred (a + b).
Definition qsub (a b : Q) : Q := Qred (a - b).
Definition qmul (a b : Q) : Q := Qred (a * b).
Definition qdiv (a b : Q) : Q := Qred (a / b).
Definition inner1Q (n m : nat) (b : nat -> Q) (st : Q * (nat -> Q)) (k : nat) : Q * (nat -> Q) :=
  let '(u, s) := st in
  let ell := (m - k + 1)%nat in
  let k1 := (k + n + 1)%nat in
  let u := qadd u (qsub (qmul (b k1) (s k)) (qmul (b (ell - 1)%nat) (s (k + 1)%nat))) in
  (u, updQ s (k + 1) u).
Definition outer1Q (n : nat) (b : nat -> Q) (st : (nat -> Q) * (nat -> Q)) (m : nat) : (nat -> Q) * (nat -> Q) :=
  let '(s, t) := st in
  let '(_, s) := fold_left (inner1Q n m b) (rev (seq 0 ((m + 1) / 2 + 1))) (0%Q, s) in
  (t, s).
Definition inner2Q (n m : nat) (b : nat -> Q) (st : Q * (nat -> Q)) (k : nat) : Q * (nat -> Q) :=
  let '(u, s) := st in
  let ell := (m - k + 1)%nat in
  let j := (n - ell)%nat in
  let k1 := (k + n + 1)%nat in
  let u := qsub u (qsub (qmul (b k1) (s (j + 1)%nat)) (qmul (b (ell - 1)%nat) (s (j + 2)%nat))) in
  (u, updQ s (j + 1) u).
Definition outer2Q (n : nat) (st : (nat -> Q) * (nat -> Q) * (nat -> Q)) (m : nat) : (nat -> Q) * (nat -> Q) * (nat -> Q) :=
  let '(b, s, t) := st in
  let lo := (m + 1 - n)%nat in
  let '(_, s) := fold_left (inner2Q n m b) (seq lo ((m - 1) / 2 + 1 - lo)) (0%Q, s) in
  let k := ((m + 1) / 2)%nat in
  let b := if (2 * k =? m)%nat then b
           else let j := (n - (m - k + 2))%nat in updQ b (k + n + 1) (qdiv (s (j + 1)%nat) (s (j + 2)%nat)) in
  (b, t, s).
Definition natQ (j : nat) : Q := inject_Z (Z.of_nat j).
Definition initQ (n : nat) : nat -> Q :=
  fold_left (fun b j => updQ b j (qdiv (qmul (natQ j) (natQ j)) (qsub (qmul (qmul (natQ 4) (natQ j)) (natQ j)) (natQ 1)))) (seq 1 ((3 * n + 1) / 2)) (updQ (fun _ => 0%Q) 0 (natQ 2)).
Definition laurieQ (n : nat) : nat -> Q :=
  let b := initQ n in
  let t := updQ (fun _ => 0%Q) 1 (b (n + 1)%nat) in
  let '(s, t) := fold_left (outer1Q n b) (seq 0 (n - 1)) (fun _ => 0%Q, t) in
  let s := fold_left (fun s j => updQ s (j + 1) (s j)) (rev (seq 0 (n / 2 + 1))) s in
  let '(b, _, _) := fold_left (outer2Q n) (seq (n - 1) (2 * n - 2 - (n - 1))) (b, s, t) in
  b.

Definition agr (f : nat -> R) (g : nat -> Q) : Prop := forall i, f i = Q2R (g i).
Lemma Q2R_add a b : Q2R (qadd a b) = Q2R a + Q2R b.
Proof. unfold qadd. rewrite (Qeq_eqR _ _ (Qred_correct _)). apply Q2R_plus. Qed.
Lemma Q2R_sub a b : Q2R (qsub a b) = Q2R a - Q2R b.
Proof. unfold qsub. rewrite (Qeq_eqR _ _ (Qred_correct _)). apply Q2R_minus. Qed.
Lemma Q2R_mul a b : Q2R (qmul a b) = Q2R a * Q2R b.
Proof. unfold qmul. rewrite (Qeq_eqR _ _ (Qred_correct _)). apply Q2R_mult. Qed.
Lemma Q2R_dv a b : Q2R (qdiv a b) = Q2R a / Q2R b.
Proof.
  unfold qdiv. rewrite (Qeq_eqR _ _ (Qred_correct _)). destruct (Qeq_dec b 0) as [E|NE]; [|now apply Q2R_div].
  unfold Qdiv. rewrite Q2R_mult. replace (Q2R b) with 0 by (rewrite (Qeq_eqR _ _ E), RMicromega.Q2R_0; reflexivity).
  assert (E2 : (/ b == 0)%Q) by (rewrite E; reflexivity). rewrite (Qeq_eqR _ _ E2), RMicromega.Q2R_0. unfold Rdiv. rewrite Rinv_0. reflexivity.
Qed.
Lemma Q2R_nat j : Q2R (natQ j) = INR j.
Proof. unfold natQ, Q2R. cbn [Qnum Qden inject_Z]. rewrite <- INR_IZR_INZ. field. Qed.
Lemma agr_upd f g i v q : agr f g -> v = Q2R q -> agr (upd f i v) (updQ g i q).
Proof. intros H E j. unfold upd, updQ. destruct (j =? i)%nat; [easy|apply H]. Qed.
Lemma agr_0 : agr (fun _ => 0) (fun _ => 0%Q).
Proof. intros i. symmetry. apply RMicromega.Q2R_0. Qed.
Definition agr1 (a : R * (nat -> R)) (b : Q * (nat -> Q)) : Prop := fst a = Q2R (fst b) /\ agr (snd a) (snd b).
Lemma fold_rel {A B X} (P : A -> B -> Prop) (f : A -> X -> A) (g : B -> X -> B) l : (forall a b x, P a b -> P (f a x) (g b x)) ->
  forall a b, P a b -> P (fold_left f l a) (fold_left g l b).
Proof. intros H. induction l as [|x l IH]; intros a b HP; cbn [fold_left]; auto. Qed.
Lemma inner1_agr n m b bq k st sq : agr b bq -> agr1 st sq -> agr1 (laurie_inner1 n m b st k) (inner1Q n m bq sq k).
Proof.
  intros HB [H1 H2]. destruct st as [u s], sq as [uq sq]. cbn [fst snd] in *. unfold laurie_inner1, inner1Q.
  assert (E : u + (b (k + n + 1)%nat * s k - b (m - k + 1 - 1)%nat * s (k + 1)%nat) = Q2R (qadd uq (qsub (qmul (bq (k + n + 1)%nat) (sq k)) (qmul (bq (m - k + 1 - 1)%nat) (sq (k + 1)%nat))))).
  { rewrite Q2R_add, Q2R_sub, !Q2R_mul, <- !HB, <- !H2, H1. reflexivity. }
  split; cbn [fst snd]; [exact E|]. now apply agr_upd.
Qed.
Lemma inner2_agr n m b bq k st sq : agr b bq -> agr1 st sq -> agr1 (laurie_inner2 n m b st k) (inner2Q n m bq sq k).
Proof.
  intros HB [H1 H2]. destruct st as [u s], sq as [uq sq]. cbn [fst snd] in *. unfold laurie_inner2, inner2Q. set (j := (n - (m - k + 1))%nat).
  assert (E : u - (b (k + n + 1)%nat * s (j + 1)%nat - b (m - k + 1 - 1)%nat * s (j + 2)%nat) = Q2R (qsub uq (qsub (qmul (bq (k + n + 1)%nat) (sq (j + 1)%nat)) (qmul (bq (m - k + 1 - 1)%nat) (sq (j + 2)%nat))))).
  { rewrite !Q2R_sub, !Q2R_mul, <- !HB, <- !H2, H1. reflexivity. }
  split; cbn [fst snd]; [exact E|]. now apply agr_upd.
Qed.
Lemma outer1_agr n b bq m st sq : agr b bq -> agr (fst st) (fst sq) /\ agr (snd st) (snd sq) ->
  agr (fst (laurie_outer1 n b st m)) (fst (outer1Q n bq sq m)) /\ agr (snd (laurie_outer1 n b st m)) (snd (outer1Q n bq sq m)).
Proof.
  intros HB [H1 H2]. destruct st as [s t], sq as [sq tq]. cbn [fst snd] in *. unfold laurie_outer1, outer1Q.
  assert (P : agr1 (fold_left (laurie_inner1 n m b) (rev (seq 0 ((m + 1) / 2 + 1))) (0, s)) (fold_left (inner1Q n m bq) (rev (seq 0 ((m + 1) / 2 + 1))) (0%Q, sq))).
  { apply fold_rel; [intros; now apply inner1_agr|]. split; [symmetry; apply RMicromega.Q2R_0|easy]. }
  destruct (fold_left _ _ (0, s)) as [u s'], (fold_left _ _ (0%Q, sq)) as [uq sq']. destruct P as [_ P]. split; easy.
Qed.
Definition agr3 (a : (nat -> R) * (nat -> R) * (nat -> R)) (b : (nat -> Q) * (nat -> Q) * (nat -> Q)) : Prop :=
  agr (fst (fst a)) (fst (fst b)) /\ agr (snd (fst a)) (snd (fst b)) /\ agr (snd a) (snd b).
Lemma outer2_agr n m st sq : agr3 st sq -> agr3 (laurie_outer2 n st m) (outer2Q n sq m).
Proof.
  intros (HB & H1 & H2). destruct st as [[b s] t], sq as [[bq sq] tq]. cbn [fst snd] in *. unfold laurie_outer2, outer2Q. set (lo := (m + 1 - n)%nat).
  assert (P : agr1 (fold_left (laurie_inner2 n m b) (seq lo ((m - 1) / 2 + 1 - lo)) (0, s)) (fold_left (inner2Q n m bq) (seq lo ((m - 1) / 2 + 1 - lo)) (0%Q, sq))).
  { apply fold_rel; [intros; now apply inner2_agr|]. split; [symmetry; apply RMicromega.Q2R_0|easy]. }
  destruct (fold_left _ _ (0, s)) as [u s'], (fold_left _ _ (0%Q, sq)) as [uq sq']. destruct P as [_ P]. cbn [snd] in P.
  split; [|split; easy]. cbn [fst snd]. destruct (2 * ((m + 1) / 2) =? m)%nat; [easy|]. apply agr_upd; [easy|]. now rewrite Q2R_dv, <- !P.
Qed.
Lemma laurieQ_spec n i : laurie n i = Q2R (laurieQ n i).
Proof.
  unfold laurie, laurieQ.
  assert (HI : agr (laurie_init n) (initQ n)).
  { unfold laurie_init, initQ. apply fold_rel.
    - intros a b j H. apply agr_upd; [easy|]. rewrite Q2R_dv, Q2R_sub, !Q2R_mul, !Q2R_nat. replace (INR 4) with 4 by (cbn; ring). reflexivity.
    - apply agr_upd; [apply agr_0|]. now rewrite Q2R_nat. }
  assert (P1 : let a := fold_left (laurie_outer1 n (laurie_init n)) (seq 0 (n - 1)) (fun _ => 0, upd (fun _ => 0) 1 (laurie_init n (n + 1)%nat)) in
               let b := fold_left (outer1Q n (initQ n)) (seq 0 (n - 1)) (fun _ => 0%Q, updQ (fun _ => 0%Q) 1 (initQ n (n + 1)%nat)) in agr (fst a) (fst b) /\ agr (snd a) (snd b)).
  { cbv zeta. apply (fold_rel (fun a b => agr (fst a) (fst b) /\ agr (snd a) (snd b))); [intros; now apply outer1_agr|]. split; [apply agr_0|]. apply agr_upd; [apply agr_0|apply HI]. }
  cbv zeta in P1. destruct (fold_left (laurie_outer1 _ _) _ _) as [s t], (fold_left (outer1Q _ _) _ _) as [sq tq]. destruct P1 as [P1 P2]. cbn [fst snd] in *.
  set (s' := fold_left _ _ s). set (sq' := fold_left _ _ sq).
  assert (HS : agr s' sq') by (apply fold_rel; [intros a b x H; apply agr_upd; [easy|apply H]|easy]).
  pose proof (fold_rel agr3 (laurie_outer2 n) (outer2Q n) (seq (n - 1) (2 * n - 2 - (n - 1))) (fun a b x H => outer2_agr n x a b H) (laurie_init n, s', t) (initQ n, sq', tq)) as F.
  destruct (fold_left (laurie_outer2 n) _ _) as [[b ?] ?], (fold_left (outer2Q n) _ _) as [[bq ?] ?]. apply F. repeat split; easy.
Qed.
Definition laurie_posb (n : nat) : bool := let b := laurieQ n in forallb (fun j => Qle_bool 0 (b j) && negb (Qeq_bool 0 (b j)))%bool (seq ((3 * n + 1) / 2 + 1) (2 * n - (3 * n + 1) / 2)).
Lemma laurie_posb_spec n : laurie_posb n = true -> forall j, ((3 * n + 1) / 2 < j <= 2 * n)%nat -> 0 < laurie n j.
Proof.
  intros H j Hj. unfold laurie_posb in H. rewrite forallb_forall in H. specialize (H j). rewrite laurieQ_spec.
  assert (I : In j (seq ((3 * n + 1) / 2 + 1) (2 * n - (3 * n + 1) / 2))) by (apply in_seq; lia). apply H in I. apply andb_prop in I. destruct I as [I1 I2].
  apply Qle_bool_iff, Qle_Rle in I1. apply negb_true_iff, Qeq_bool_neq in I2. rewrite RMicromega.Q2R_0 in I1. destruct I1 as [I1|I1]; [easy|]. exfalso. apply I2. apply eqR_Qeq. rewrite RMicromega.Q2R_0. exact I1.
Qed.
