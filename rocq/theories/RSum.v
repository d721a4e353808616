(** * Finite sums of reals, [rsum f n] = f 0 + ... + f (n-1). *)
From Coq Require Import List Arith Reals Lia Lra.
Import ListNotations.
Local Open Scope R_scope.

(** Restate an equation between elements of Coquelicot's R structures over R. *)
Ltac req := match goal with |- @eq _ ?l ?r => change (@eq R l r) end.

Fixpoint rsum (f : nat -> R) (n : nat) : R :=
  match n with O => 0 | S m => rsum f m + f m end.

Lemma rsum_ext f g n : (forall k, (k < n)%nat -> f k = g k) -> rsum f n = rsum g n.
Proof.
  induction n as [|n IH]; intros H; cbn [rsum]; [easy|].
  rewrite IH, H by (intros; auto with arith). easy.
Qed.

Lemma rsum_0 f n : (forall k, (k < n)%nat -> f k = 0) -> rsum f n = 0.
Proof.
  induction n as [|n IH]; intros H; cbn [rsum]; [easy|].
  rewrite IH, H by (intros; auto with arith). ring.
Qed.

Lemma rsum_plus f g n : rsum (fun k => f k + g k) n = rsum f n + rsum g n.
Proof. induction n as [|n IH]; cbn [rsum]; [ring|rewrite IH; ring]. Qed.

Lemma rsum_minus f g n : rsum (fun k => f k - g k) n = rsum f n - rsum g n.
Proof. induction n as [|n IH]; cbn [rsum]; [ring|rewrite IH; ring]. Qed.

Lemma rsum_scal c f n : rsum (fun k => c * f k) n = c * rsum f n.
Proof. induction n as [|n IH]; cbn [rsum]; [ring|rewrite IH; ring]. Qed.

Lemma rsum_scal_r c f n : rsum (fun k => f k * c) n = rsum f n * c.
Proof. induction n as [|n IH]; cbn [rsum]; [ring|rewrite IH; ring]. Qed.

Lemma rsum_S f n : rsum f (S n) = rsum f n + f n.
Proof. reflexivity. Qed.

Lemma rsum_shift f n : rsum f (S n) = f 0%nat + rsum (fun k => f (S k)) n.
Proof.
  induction n as [|n IH]; [cbn [rsum]; ring|].
  rewrite rsum_S, IH, rsum_S. ring.
Qed.

Lemma rsum_app f n m : rsum f (n + m) = rsum f n + rsum (fun k => f (n + k)%nat) m.
Proof.
  induction m as [|m IH]; [rewrite Nat.add_0_r; cbn [rsum]; ring|].
  rewrite Nat.add_succ_r, !rsum_S, IH. ring.
Qed.

Lemma rsum_swap f n m :
  rsum (fun i => rsum (fun j => f i j) m) n = rsum (fun j => rsum (fun i => f i j) n) m.
Proof.
  induction n as [|n IH].
  - cbn [rsum]. symmetry. now apply rsum_0.
  - cbn [rsum]. now rewrite IH, <- rsum_plus.
Qed.

Lemma rsum_single f n k : (k < n)%nat -> (forall j, (j < n)%nat -> j <> k -> f j = 0) ->
  rsum f n = f k.
Proof.
  induction n as [|n IH]; intros Hk H; [lia|]. cbn [rsum].
  destruct (Nat.eq_dec k n) as [->|Hn].
  - rewrite rsum_0; [ring|]. intros j Hj. apply H; lia.
  - rewrite IH, (H n); [ring|lia..|]. intros j Hj. apply H; lia.
Qed.

Lemma rsum_tail f n N : (n <= N)%nat -> (forall k, (n <= k < N)%nat -> f k = 0) ->
  rsum f N = rsum f n.
Proof.
  intros Hn H. replace N with (n + (N - n))%nat by lia.
  rewrite rsum_app, (rsum_0 (fun k => f (n + k)%nat)); [ring|].
  intros k Hk. apply H. lia.
Qed.

Lemma rsum_nonneg f n : (forall k, (k < n)%nat -> 0 <= f k) -> 0 <= rsum f n.
Proof.
  induction n as [|n IH]; intros H; cbn [rsum]; [lra|].
  apply Rplus_le_le_0_compat; [apply IH; auto|apply H; auto].
Qed.

Lemma rsum_le f g n : (forall k, (k < n)%nat -> f k <= g k) -> rsum f n <= rsum g n.
Proof.
  induction n as [|n IH]; intros H; cbn [rsum]; [lra|].
  apply Rplus_le_compat; [apply IH; auto|apply H; auto].
Qed.

Lemma rsum_const c n : rsum (fun _ => c) n = INR n * c.
Proof. induction n as [|n IH]; [cbn [rsum]; simpl; ring|]. rewrite rsum_S, IH, S_INR. ring. Qed.

Lemma rsum_rev f n : rsum f n = rsum (fun k => f (n - 1 - k)%nat) n.
Proof.
  induction n as [|n IH]; [easy|].
  rewrite rsum_S, IH. rewrite (rsum_shift _ n).
  replace (S n - 1 - 0)%nat with n by lia. rewrite Rplus_comm. f_equal.
  apply rsum_ext. intros k Hk. f_equal. lia.
Qed.
