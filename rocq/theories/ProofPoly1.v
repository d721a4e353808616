(** * Polynomials in one variable *)
From Coquelicot Require Import Coquelicot.
From Coq Require Import List Arith Bool Reals Lra Lia.
From Verif Require Import RSum SpecPoly.
Import ListNotations.
Local Open Scope R_scope.

Definition poly1 (n : nat) (f : R -> R) : Prop := exists c : nat -> R, forall x, f x = rsum (fun k => c k * x ^ k) (S n).

Lemma poly1_ext n f g : (forall x, f x = g x) -> poly1 n f -> poly1 n g.
Proof. intros E (c & H). exists c. intros x. now rewrite <- E. Qed.
Lemma poly1_weaken n m f : (n <= m)%nat -> poly1 n f -> poly1 m f.
Proof.
  intros L (c & H). exists (fun k => if (k <=? n)%nat then c k else 0). intros x. rewrite H. symmetry.
  rewrite (rsum_tail _ (S n) (S m)); [|lia|].
  - apply rsum_ext. intros k Hk. destruct (Nat.leb_spec k n); [easy|lia].
  - intros k Hk. destruct (Nat.leb_spec k n); [lia|ring].
Qed.
Lemma poly1_plus n f g : poly1 n f -> poly1 n g -> poly1 n (fun x => f x + g x).
Proof.
  intros (c & H) (d & K). exists (fun k => c k + d k). intros x. rewrite H, K, <- rsum_plus. apply rsum_ext. intros. ring.
Qed.
Lemma poly1_scal n a f : poly1 n f -> poly1 n (fun x => a * f x).
Proof. intros (c & H). exists (fun k => a * c k). intros x. rewrite H, <- rsum_scal. apply rsum_ext. intros. ring. Qed.
Lemma poly1_pow k : poly1 k (fun x => x ^ k).
Proof.
  exists (fun j => if (j =? k)%nat then 1 else 0). intros x. rewrite (rsum_single _ (S k) k); [rewrite Nat.eqb_refl; ring|lia|].
  intros j _ Hj. destruct (Nat.eqb_spec j k); [lia|ring].
Qed.
Lemma poly1_const n a : poly1 n (fun _ => a).
Proof.
  apply (poly1_weaken 0); [lia|]. eapply poly1_ext; [|apply (poly1_scal 0 a _ (poly1_pow 0))]. intros. cbn [pow]. ring.
Qed.
Lemma poly1_x : poly1 1 (fun x => x).
Proof. eapply poly1_ext; [|apply (poly1_pow 1)]. intros. cbn [pow]. ring. Qed.
Lemma is_poly_poly1 n phi : is_poly 1 n phi -> poly1 n (fun t => phi [t]).
Proof.
  intros (ts & H & E). apply (poly1_ext n (fun t => polyval ts [t])); [intros x; now rewrite E|]. clear E.
  induction ts as [|[a e] ts IH]; [apply (poly1_const n 0)|]. inversion H as [|? ? [L S] H']; subst. cbn [snd] in *.
  destruct e as [|k [|? ?]]; try discriminate. cbn [fold_right] in S.
  apply (poly1_ext n (fun t => a * t ^ k + polyval ts [t])).
  - intros x. unfold polyval. cbn [fold_right fst snd monoval]. ring.
  - apply poly1_plus; [|auto]. apply poly1_scal, (poly1_weaken k); [lia|apply poly1_pow].
Qed.
Lemma poly1_is_poly n f : poly1 n f -> is_poly 1 n (fun l => f (nth 0 l 0)).
Proof.
  intros (c & E). apply (is_poly_ext 1 n (fun l => rsum (fun k => c k * nth 0 l 0 ^ k) (S n))); [intros; now rewrite E|].
  apply (is_poly_rsum 1 n (fun k l => c k * nth 0 l 0 ^ k)). intros k Hk. apply is_poly_scal.
  apply (is_poly_weaken 1 (k * 1)); [lia|]. apply (is_poly_pow 1 1 (fun l => nth 0 l 0)). apply is_poly_coord. lia.
Qed.
Lemma poly1_mult n m f g : poly1 n f -> poly1 m g -> poly1 (n + m) (fun x => f x * g x).
Proof.
  intros H K. pose proof (is_poly_poly1 _ _ (is_poly_mult _ _ _ _ _ (poly1_is_poly _ _ H) (poly1_is_poly _ _ K))) as P. exact P.
Qed.
Lemma poly1_rsum n (f : nat -> R -> R) m : (forall k, (k < m)%nat -> poly1 n (f k)) -> poly1 n (fun x => rsum (fun k => f k x) m).
Proof.
  induction m as [|m IH]; intros H; cbn [rsum]; [apply (poly1_const n 0)|]. apply poly1_plus; auto.
Qed.
Lemma poly1_minus n f g : poly1 n f -> poly1 n g -> poly1 n (fun x => f x - g x).
Proof.
  intros H K. eapply poly1_ext; [|apply (poly1_plus _ _ _ H (poly1_scal n (-1) _ K))]. intros x. cbv beta. ring.
Qed.
Lemma poly1_cont n f x : poly1 n f -> continuous f x.
Proof.
  intros (c & E). apply (continuous_ext (fun x => rsum (fun k => c k * x ^ k) (S n))); [intros; now rewrite E|].
  generalize (S n). intros m. induction m as [|m IH]; cbn [rsum]; [apply continuous_const|].
  apply (continuous_plus (fun x => rsum (fun k => c k * x ^ k) m) (fun x => c m * x ^ m)); [exact IH|].
  apply (continuous_scal_r (c m) (fun x => x ^ m)). apply ex_derive_continuous. auto_derive. easy.
Qed.
(** Division by a linear factor. *)
Lemma poly1_divx n f : poly1 (S n) f -> exists g, poly1 n g /\ forall x, f x = f 0 + x * g x.
Proof.
  intros (c & E). exists (fun x => rsum (fun k => c (S k) * x ^ k) (S n)). split; [now exists (fun k => c (S k))|].
  intros x. rewrite !E. rewrite (rsum_shift _ (S n)), (rsum_shift (fun k => c k * 0 ^ k) (S n)).
  rewrite (rsum_0 (fun k => c (S k) * 0 ^ S k)) by (intros; cbn [pow]; ring). rewrite <- rsum_scal. cbn [pow].
  rewrite (rsum_ext (fun k => c (S k) * (x * x ^ k)) (fun k => x * (c (S k) * x ^ k))) by (intros; ring). ring.
Qed.
Lemma poly1_shift n f r : poly1 n f -> poly1 n (fun x => f (x + r)).
Proof.
  intros (c & E). apply (poly1_ext n (fun x => rsum (fun k => c k * (x + r) ^ k) (S n))); [intros; now rewrite E|].
  apply (poly1_rsum n (fun k x => c k * (x + r) ^ k)). intros k Hk. apply poly1_scal. apply (poly1_weaken k); [lia|]. clear.
  induction k as [|k IH]; [apply (poly1_const 0 1)|]. cbn [pow]. apply (poly1_mult 1 k (fun x => x + r)); [|exact IH].
  apply (poly1_plus 1 (fun x => x)); [apply poly1_x|apply poly1_const].
Qed.
Lemma poly1_root n f r : poly1 (S n) f -> f r = 0 -> exists g, poly1 n g /\ forall x, f x = (x - r) * g x.
Proof.
  intros H R0. destruct (poly1_divx n _ (poly1_shift _ _ r H)) as (g & G & E). exists (fun x => g (x + - r)). split.
  - now apply poly1_shift.
  - intros x. specialize (E (x + - r)). replace (x + - r + r) with x in E by ring. rewrite E. replace (0 + r) with r by ring. rewrite R0. ring.
Qed.
Lemma poly1_const0 f : poly1 0 f -> forall x, f x = f 0.
Proof. intros (c & E) x. rewrite !E. cbn [rsum pow]. ring. Qed.

Fixpoint rprod (f : nat -> R) (n : nat) : R := match n with O => 1 | S m => rprod f m * f m end.
Lemma rprod_ext f g n : (forall i, (i < n)%nat -> f i = g i) -> rprod f n = rprod g n.
Proof. induction n as [|n IH]; intros H; cbn [rprod]; [easy|]. rewrite IH, H; auto. Qed.
Lemma rprod_pos f n : (forall i, (i < n)%nat -> 0 < f i) -> 0 < rprod f n.
Proof. induction n as [|n IH]; intros H; cbn [rprod]; [lra|]. apply Rmult_lt_0_compat; auto. Qed.
Lemma rprod_sign f n j : (j <= n)%nat -> (forall i, (i < j)%nat -> 0 < f i) -> (forall i, (j <= i < n)%nat -> f i < 0) ->
  0 < (-1) ^ (n - j) * rprod f n.
Proof.
  intros Hj H1 H2. induction n as [|n IH].
  - replace (0 - j)%nat with 0%nat by lia. cbn. lra.
  - destruct (Nat.eq_dec j (S n)) as [->|].
    + rewrite Nat.sub_diag. cbn [pow]. rewrite Rmult_1_l. now apply rprod_pos.
    + replace (S n - j)%nat with (S (n - j)) by lia. cbn [pow rprod].
      assert (I : 0 < (-1) ^ (n - j) * rprod f n) by (apply IH; [lia|intros; apply H2; lia]).
      pose proof (H2 n ltac:(lia)). nra.
Qed.
Lemma rprod_zero f n : rprod f n = 0 -> exists i, (i < n)%nat /\ f i = 0.
Proof.
  induction n as [|n IH]; cbn [rprod]; intros H; [lra|]. apply Rmult_integral in H. destruct H as [H|H].
  - destruct (IH H) as (i & Hi & E). exists i. split; [lia|easy].
  - exists n. split; [lia|easy].
Qed.
(** A polynomial of degree at most [n] with [n] distinct roots factors. *)
Lemma poly1_factor n : forall f (z : nat -> R), poly1 n f -> (forall i j, (i < j < n)%nat -> z i <> z j) ->
  (forall i, (i < n)%nat -> f (z i) = 0) -> exists k, forall x, f x = k * rprod (fun i => x - z i) n.
Proof.
  induction n as [|n IH]; intros f z H D Z.
  - exists (f 0). intros x. cbn [rprod]. rewrite (poly1_const0 f H x). ring.
  - destruct (poly1_root n f (z n) H (Z n ltac:(lia))) as (g & G & E).
    destruct (IH g z G) as (k & K).
    + intros i j Hij. apply D. lia.
    + intros i Hi. pose proof (Z i ltac:(lia)) as Zi. rewrite E in Zi. apply Rmult_integral in Zi. destruct Zi as [Zi|Zi]; [|easy].
      exfalso. apply (D i n ltac:(lia)). lra.
    + exists k. intros x. rewrite E, K. cbn [rprod]. ring.
Qed.
(** A polynomial of degree at most [n] with [n+1] distinct roots vanishes. *)
Lemma poly1_zero n f (z : nat -> R) : poly1 n f -> (forall i j, (i < j < S n)%nat -> z i <> z j) ->
  (forall i, (i < S n)%nat -> f (z i) = 0) -> forall x, f x = 0.
Proof.
  intros H D Z x. destruct (poly1_factor n f z H) as (k & K); [intros; apply D; lia|intros; apply Z; lia|].
  pose proof (Z n ltac:(lia)) as Zn. rewrite K in Zn. apply Rmult_integral in Zn. destruct Zn as [->|Zn]; [rewrite K; ring|].
  apply rprod_zero in Zn. destruct Zn as (i & Hi & E). exfalso. apply (D i n ltac:(lia)). lra.
Qed.
