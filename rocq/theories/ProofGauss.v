(** * Gauss rules from an eigendecomposition of the Jacobi matrix *)
From Coquelicot Require Import Coquelicot.
From Coq Require Import List Arith Bool Reals Lra Lia.
From Verif Require Import Py RSum ProofLinAlg.
Import ListNotations.
Local Open Scope R_scope.

Lemma rsum_pos_sq (f : nat -> R) n : rsum (fun k => f k * f k) n = 0 -> forall k, (k < n)%nat -> f k = 0.
Proof.
  induction n as [|n IH]; intros H k Hk; [lia|]. rewrite rsum_S in H.
  assert (0 <= rsum (fun k => f k * f k) n) by (apply rsum_nonneg; intros; nra). assert (f n * f n = 0) by nra.
  destruct (Nat.eq_dec k n) as [->|]; [nra|]. apply IH; [nra|lia].
Qed.
(** The tridiagonal matrix with diagonal [be] and off-diagonal [al]. *)
Definition tri (al be : nat -> R) (i j : nat) : R :=
  if (j =? i)%nat then be i else if (j =? S i)%nat then al i else if (i =? S j)%nat then al j else 0.
Lemma tri_row al be N i (v : nat -> R) : (i < S N)%nat ->
  rsum (fun k => tri al be i k * v k) (S N)
  = (match i with O => 0 | S j => al j * v j end) + be i * v i + (if (i <? N)%nat then al i * v (S i) else 0).
Proof.
  intros Hi.
  assert (E : rsum (fun k => tri al be i k * v k) (S N)
     = rsum (fun k => if (k =? i)%nat then be i * v i else 0) (S N)
       + (rsum (fun k => if (k =? S i)%nat then al i * v (S i) else 0) (S N)
       + rsum (fun k => if (i =? S k)%nat then al k * v k else 0) (S N))).
  { rewrite <- !rsum_plus. apply rsum_ext. intros k Hk. unfold tri.
    destruct (Nat.eqb_spec k i); destruct (Nat.eqb_spec k (S i)); destruct (Nat.eqb_spec i (S k)); subst; try lia; ring. }
  rewrite E. rewrite (rsum_single _ (S N) i); [|easy|intros j _ Hj; destruct (Nat.eqb_spec j i); [lia|easy]].
  rewrite Nat.eqb_refl.
  assert (E2 : rsum (fun k => if (k =? S i)%nat then al i * v (S i) else 0) (S N) = if (i <? N)%nat then al i * v (S i) else 0).
  { destruct (Nat.ltb_spec i N).
    - rewrite (rsum_single _ (S N) (S i)); [now rewrite Nat.eqb_refl|lia|]. intros j _ Hj. destruct (Nat.eqb_spec j (S i)); [lia|easy].
    - apply rsum_0. intros k Hk. destruct (Nat.eqb_spec k (S i)); [lia|easy]. }
  rewrite E2.
  assert (E3 : rsum (fun k => if (i =? S k)%nat then al k * v k else 0) (S N) = match i with O => 0 | S j => al j * v j end).
  { destruct i as [|j]; [apply rsum_0; intros; now cbn|].
    rewrite (rsum_single _ (S N) j); [now rewrite Nat.eqb_refl|lia|]. intros k _ Hj. destruct (Nat.eqb_spec (S j) (S k)); [lia|easy]. }
  rewrite E3. ring.
Qed.

(** An orthonormal eigendecomposition of the [n] x [n] matrix [T]. *)
Definition eigdec (n : nat) (T : nat -> nat -> R) (lam : nat -> R) (V : nat -> nat -> R) : Prop :=
  (forall i j, (i < n)%nat -> (j < n)%nat -> rsum (fun k => T i k * V k j) n = lam j * V i j)
  /\ (forall i j, (i < n)%nat -> (j < n)%nat -> rsum (fun k => V k i * V k j) n = if (i =? j)%nat then 1 else 0).

Section Gauss.
  Context (p : nat -> R -> R) (al be : nat -> R) (c0 : R).
  Hypothesis Hal : forall n, 0 < al n.
  Hypothesis Hc0 : c0 <> 0.
  Hypothesis Hp0 : forall x, p 0%nat x = c0.
  Hypothesis Hp1 : forall x, x * p 0%nat x = al 0%nat * p 1%nat x + be 0%nat * p 0%nat x.
  Hypothesis Hrec : forall n x, x * p (S n) x = al (S n) * p (S (S n)) x + be (S n) * p (S n) x + al n * p n x.

  Lemma p_rec n x : x * p n x = (match n with O => 0 | S m => al m * p m x end) + be n * p n x + al n * p (S n) x.
  Proof. destruct n as [|m]; [rewrite Hp1|rewrite Hrec]; ring. Qed.

  Section Dec.
    Context (N : nat) (lam : nat -> R) (V : nat -> nat -> R).
    Hypothesis HE : eigdec (S N) (tri al be) lam V.

    Lemma vec_poly j : (j < S N)%nat -> forall n, (n < S N)%nat -> V n j = V 0%nat j / c0 * p n (lam j).
    Proof.
      intros Hj. pose proof HE as [E _].
      assert (P : forall n, (n < S N)%nat -> V n j = V 0%nat j / c0 * p n (lam j)
                   /\ ((S n < S N)%nat -> V (S n) j = V 0%nat j / c0 * p (S n) (lam j))).
      { induction n as [|n IH]; intros Hn.
        - split; [rewrite Hp0; field; easy|]. intros H1. pose proof (E 0%nat j Hn Hj) as R0. rewrite tri_row in R0 by lia.
          destruct (Nat.ltb_spec 0 N); [|lia]. pose proof (p_rec 0 (lam j)) as R1. rewrite Hp0 in R1.
          pose proof (Hal 0). apply Rmult_eq_reg_l with (al 0%nat); [|lra]. 
          transitivity ((lam j - be 0%nat) * V 0%nat j); [lra|].
          transitivity (V 0%nat j / c0 * (al 0%nat * p 1%nat (lam j))); [|ring].
          replace (al 0%nat * p 1%nat (lam j)) with ((lam j - be 0%nat) * c0) by lra. field. easy.
        - destruct (IH ltac:(lia)) as [I1 I2]. specialize (I2 Hn). split; [exact I2|]. intros H1.
          pose proof (E (S n) j Hn Hj) as R0. rewrite tri_row in R0 by lia.
          destruct (Nat.ltb_spec (S n) N); [|lia]. pose proof (p_rec (S n) (lam j)) as R1.
          pose proof (Hal (S n)). apply Rmult_eq_reg_l with (al (S n)); [|lra].
          transitivity (V 0%nat j / c0 * (al (S n) * p (S (S n)) (lam j))); [|ring].
          replace (al (S n) * p (S (S n)) (lam j)) with (lam j * p (S n) (lam j) - al n * p n (lam j) - be (S n) * p (S n) (lam j)) by lra.
          replace (al (S n) * V (S (S n)) j) with (lam j * V (S n) j - al n * V n j - be (S n) * V (S n) j) by lra.
          rewrite I1, I2. ring. }
      intros n Hn. now apply P.
    Qed.
    Lemma vec_ne j : (j < S N)%nat -> V 0%nat j <> 0.
    Proof.
      intros Hj H0. pose proof HE as [_ O]. specialize (O j j Hj Hj). rewrite Nat.eqb_refl in O.
      rewrite rsum_0 in O; [lra|]. intros k Hk. rewrite (vec_poly j Hj k Hk), H0. unfold Rdiv. ring.
    Qed.
    Lemma node_root j : (j < S N)%nat -> p (S N) (lam j) = 0.
    Proof.
      intros Hj. pose proof (vec_ne j Hj) as H0. pose proof HE as [E _]. pose proof (E N j ltac:(lia) Hj) as R0. rewrite tri_row in R0 by lia.
      destruct (Nat.ltb_spec N N); [lia|]. pose proof (p_rec N (lam j)) as R1. rewrite (vec_poly j Hj N) in R0 by lia.
      assert (K : V 0%nat j / c0 * (al N * p (S N) (lam j)) = 0).
      { replace (al N * p (S N) (lam j)) with (lam j * p N (lam j) - (match N with O => 0 | S m => al m * p m (lam j) end) - be N * p N (lam j)) by lra.
        assert (VP := vec_poly j Hj). clear - R0 VP. destruct N as [|M]; [lra|]. rewrite (VP M) in R0 by lia. lra. }
      pose proof (Hal N). apply Rmult_integral in K. destruct K as [K|K].
      - exfalso. apply H0. apply (Rmult_eq_reg_r (/ c0)); [unfold Rdiv in K; lra|now apply Rinv_neq_0_compat].
      - apply Rmult_integral in K. destruct K; [lra|easy].
    Qed.
    Lemma nodes_distinct i j : (i < S N)%nat -> (j < S N)%nat -> lam i = lam j -> i = j.
    Proof.
      intros Hi Hj E. destruct (Nat.eq_dec i j) as [|Hne]; [easy|exfalso]. pose proof HE as [_ O].
      pose proof (O i i Hi Hi) as O1. pose proof (O i j Hi Hj) as O2. rewrite Nat.eqb_refl in O1.
      destruct (Nat.eqb_spec i j); [easy|].
      pose proof (vec_ne i Hi). pose proof (vec_ne j Hj).
      assert (K : rsum (fun k => V k i * V k j) (S N) = V 0%nat j / V 0%nat i * rsum (fun k => V k i * V k i) (S N)).
      { rewrite <- rsum_scal. apply rsum_ext. intros k Hk. rewrite (vec_poly i Hi k Hk), (vec_poly j Hj k Hk), E. field. now split. }
      rewrite O1, O2 in K. assert (V 0%nat j / V 0%nat i <> 0); [|lra]. apply Rmult_integral_contrapositive_currified; [easy|now apply Rinv_neq_0_compat].
    Qed.

    Definition gw (j : nat) : R := V 0%nat j ^ 2 / c0 ^ 2.
    Lemma gw_pos j : (j < S N)%nat -> 0 < gw j.
    Proof.
      intros Hj. pose proof (vec_ne j Hj). unfold gw. apply Rdiv_lt_0_compat; apply pow2_gt_0; easy.
    Qed.
    (** The weight is the Christoffel number. *)
    Lemma gw_christoffel j : (j < S N)%nat -> gw j * rsum (fun n => p n (lam j) * p n (lam j)) (S N) = 1.
    Proof.
      intros Hj. pose proof HE as [_ O]. specialize (O j j Hj Hj). rewrite Nat.eqb_refl in O. rewrite <- O, <- rsum_scal.
      apply rsum_ext. intros n Hn. rewrite (vec_poly j Hj n Hn). unfold gw. field. easy.
    Qed.
    Lemma disc_ortho m n : (m < S N)%nat -> (n < S N)%nat ->
      rsum (fun i => gw i * (p m (lam i) * p n (lam i))) (S N) = if (m =? n)%nat then 1 else 0.
    Proof.
      intros Hm Hn. pose proof HE as [_ O].
      pose proof (@inverse_swap (S N) (fun i j => V j i) V) as I. unfold prodf in I.
      assert (I' := I O m n Hm Hn). cbv beta in I'. refine (eq_trans _ I'). apply rsum_ext. intros i Hi.
      rewrite (vec_poly i Hi m Hm), (vec_poly i Hi n Hn). unfold gw. field. easy.
    Qed.
    Lemma disc_ortho' m n : (m <= S N)%nat -> (n < S N)%nat ->
      rsum (fun i => gw i * (p m (lam i) * p n (lam i))) (S N) = if (m =? n)%nat then 1 else 0.
    Proof.
      intros Hm Hn. destruct (Nat.eq_dec m (S N)) as [->|].
      - destruct (Nat.eqb_spec (S N) n); [lia|]. apply rsum_0. intros k Hk. rewrite node_root by easy. ring.
      - apply disc_ortho; lia.
    Qed.

    Context (Int : (R -> R) -> R -> Prop).
    Hypothesis Int_ext : forall f g l, (forall x, f x = g x) -> Int f l -> Int g l.
    Hypothesis Int_plus : forall f g l m, Int f l -> Int g m -> Int (fun x => f x + g x) (l + m).
    Hypothesis Int_scal : forall c f l, Int f l -> Int (fun x => c * f x) (c * l).
    Hypothesis Int_ortho : forall m n, Int (fun x => p m x * p n x) (if (m =? n)%nat then 1 else 0).

    Definition grule (f : R -> R) : R := rsum (fun i => gw i * f (lam i)) (S N).
    Lemma Int_cast' f l m : Int f l -> l = m -> Int f m.
    Proof. now intros H <-. Qed.
    Lemma gauss_prod : forall k m n, (k + m + n <= 2 * N + 1)%nat -> (m <= S N)%nat -> (n <= N)%nat ->
      Int (fun x => x ^ k * (p m x * p n x)) (grule (fun x => x ^ k * (p m x * p n x))).
    Proof.
      induction k as [|k IH]; intros m n Hk Hm Hn.
      - eapply Int_cast'; [eapply Int_ext; [|apply (Int_ortho m n)]; intros x; cbv beta; cbn [pow]; ring|].
        rewrite <- (disc_ortho' m n) by lia. unfold grule. apply rsum_ext. intros i _. cbn [pow]. ring.
      - assert (STEP : forall f (c1 c2 c3 : R) g1 g2 g3, (forall x, f x = c1 * g1 x + c2 * g2 x + c3 * g3 x) ->
          Int g1 (grule g1) -> Int g2 (grule g2) -> (c3 = 0 \/ Int g3 (grule g3)) -> Int f (grule f)).
        { intros f c1 c2 c3 g1 g2 g3 E I1 I2 I3.
          assert (E0 : grule f = c1 * grule g1 + c2 * grule g2 + c3 * grule g3).
          { unfold grule. rewrite <- !rsum_scal, <- !rsum_plus. apply rsum_ext. intros i _. rewrite E. ring. }
          destruct I3 as [->|I3].
          - eapply Int_cast'; [eapply Int_ext; [|apply (Int_plus _ _ _ _ (Int_scal c1 _ _ I1) (Int_scal c2 _ _ I2))]|rewrite E0; ring].
            intros x. cbv beta. rewrite E. ring.
          - eapply Int_cast'; [eapply Int_ext; [|apply (Int_plus _ _ _ _ (Int_plus _ _ _ _ (Int_scal c1 _ _ I1) (Int_scal c2 _ _ I2)) (Int_scal c3 _ _ I3))]|rewrite E0; ring].
            intros x. cbv beta. rewrite E. ring. }
        destruct (le_lt_dec m N) as [HmN|HmN].
        + apply (STEP _ (al m) (be m) (match m with O => 0 | S j => al j end)
            (fun x => x ^ k * (p (S m) x * p n x)) (fun x => x ^ k * (p m x * p n x))
            (fun x => x ^ k * (p (Nat.pred m) x * p n x))).
          * intros x. transitivity (x ^ k * ((x * p m x) * p n x)); [cbn [pow]; ring|]. rewrite p_rec. destruct m; cbn [Nat.pred]; ring.
          * apply IH; lia.
          * apply IH; lia.
          * destruct m as [|j]; [now left|right]. apply IH; cbn [Nat.pred]; lia.
        + apply (STEP _ (al n) (be n) (match n with O => 0 | S j => al j end)
            (fun x => x ^ k * (p m x * p (S n) x)) (fun x => x ^ k * (p m x * p n x))
            (fun x => x ^ k * (p m x * p (Nat.pred n) x))).
          * intros x. transitivity (x ^ k * (p m x * (x * p n x))); [cbn [pow]; ring|]. rewrite p_rec. destruct n; cbn [Nat.pred]; ring.
          * apply IH; lia.
          * apply IH; lia.
          * destruct n as [|j]; [now left|right]. apply IH; cbn [Nat.pred]; lia.
    Qed.
    Lemma gauss_mono k : (k <= 2 * N + 1)%nat -> Int (fun x => x ^ k) (grule (fun x => x ^ k)).
    Proof.
      intros Hk. pose proof (gauss_prod k 0 0 ltac:(lia) ltac:(lia) ltac:(lia)) as H. apply (Int_scal (/ (c0 * c0))) in H.
      eapply Int_cast'; [eapply Int_ext; [|exact H]|].
      - intros x. cbv beta. rewrite Hp0. field. easy.
      - unfold grule. rewrite <- rsum_scal. apply rsum_ext. intros i _. rewrite Hp0. field. easy.
    Qed.
    Lemma gauss_poly (c : nat -> R) : forall n, (n <= S (2 * N + 1))%nat ->
      Int (fun x => rsum (fun k => c k * x ^ k) n) (grule (fun x => rsum (fun k => c k * x ^ k) n)).
    Proof.
      induction n as [|n IH]; intros Hn.
      - eapply Int_cast'; [eapply Int_ext; [|apply (Int_scal 0 _ _ (gauss_mono 0 ltac:(lia)))]|].
        + intros x. cbn [rsum]. ring.
        + unfold grule. cbn [rsum]. rewrite Rmult_0_l. symmetry. rewrite (rsum_0 _ N) by (intros; ring). ring.
      - cbn [rsum]. eapply Int_cast'; [apply (Int_plus _ _ _ _ (IH ltac:(lia)) (Int_scal (c n) _ _ (gauss_mono n ltac:(lia))))|].
        unfold grule. rewrite <- rsum_scal, <- rsum_plus. apply rsum_ext. intros i _. ring.
    Qed.
  End Dec.
End Gauss.
