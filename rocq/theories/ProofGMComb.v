(** * The combinatorial identity behind the Grundmann-Moeller rules

    Sequences of reals, the backward difference [D] and the convolution; the
    sequence k -> (2k+1)^x differenced x+1 times is supported on 0..x,
    symmetric, and sums to 2^x x!. *)
From Coq Require Import List Arith Bool Reals Lra Lia Factorial.
From Verif Require Import RSum Py PyToolsModel ModelShapes ModelSpaces EnumFacts SpecIndex.
Import ListNotations.
Local Open Scope R_scope.

Definition D (f : nat -> R) (k : nat) : R := f k - match k with O => 0 | S k' => f k' end.
Fixpoint Dn (n : nat) (f : nat -> R) : nat -> R := match n with O => f | S n' => D (Dn n' f) end.
Definition conv (f g : nat -> R) (n : nat) : R := rsum (fun k => f k * g (n - k)%nat) (S n).

Lemma D_ext f g : (forall k, f k = g k) -> forall k, D f k = D g k.
Proof. intros H [|k]; unfold D; rewrite ?H; reflexivity. Qed.
Lemma Dn_ext n f g : (forall k, f k = g k) -> forall k, Dn n f k = Dn n g k.
Proof. induction n as [|n IH]; intros H k; cbn [Dn]; [apply H|]. now apply D_ext, IH. Qed.
Lemma Dn_add n m f k : Dn (n + m) f k = Dn n (Dn m f) k.
Proof. revert k. induction n as [|n IH]; intros k; cbn [Nat.add Dn]; [reflexivity|]. now apply D_ext. Qed.
Lemma conv_ext f f' g g' n : (forall k, f k = f' k) -> (forall k, g k = g' k) -> conv f g n = conv f' g' n.
Proof. intros H1 H2. apply rsum_ext. intros k _. now rewrite H1, H2. Qed.
Lemma conv_comm f g n : conv f g n = conv g f n.
Proof.
  unfold conv. rewrite rsum_rev. apply rsum_ext. intros k Hk. replace (S n - 1 - k)%nat with (n - k)%nat by lia.
  replace (n - (n - k))%nat with k by lia. ring.
Qed.
Lemma D_conv_r f g n : conv f (D g) n = D (conv f g) n.
Proof.
  destruct n as [|n]; unfold D at 2; unfold conv.
  - cbn [rsum Nat.sub]. unfold D. ring.
  - rewrite (rsum_S _ (S n)). rewrite (rsum_S (fun k => f k * g (S n - k)%nat) (S n)).
    rewrite (rsum_ext (fun k => f k * D g (S n - k)%nat) (fun k => f k * g (S n - k)%nat - f k * g (n - k)%nat)).
    + rewrite rsum_minus. rewrite !Nat.sub_diag. unfold D. ring.
    + intros k Hk. replace (S n - k)%nat with (S (n - k)) by lia. unfold D. ring.
Qed.
Lemma D_conv_l f g n : conv (D f) g n = D (conv f g) n.
Proof.
  rewrite conv_comm, D_conv_r. apply D_ext. intros. apply conv_comm.
Qed.
Lemma Dn_conv p q f g n : Dn (p + q) (conv f g) n = conv (Dn p f) (Dn q g) n.
Proof.
  rewrite Dn_add. revert n. induction p as [|p IH]; intros n; cbn [Dn].
  - revert n. induction q as [|q IH]; intros n; cbn [Dn]; [reflexivity|]. rewrite D_conv_r. now apply D_ext.
  - rewrite D_conv_l. now apply D_ext.
Qed.

(** Differences as binomial sums; partial sums. *)
Lemma D_sum f n : rsum (D f) (S n) = f n.
Proof.
  induction n as [|n IH]; [cbn [rsum]; unfold D; ring|]. rewrite rsum_S, IH. unfold D. ring.
Qed.
Lemma Dn_binomial N f s : Dn N f s = rsum (fun i => (-1) ^ i * INR (comb N i) * f (s - i)%nat) (S s).
Proof.
  revert s. induction N as [|N IH]; intros s; cbn [Dn].
  - rewrite rsum_shift. cbn [comb pow]. rewrite Nat.sub_0_r. rewrite rsum_0; [simpl; ring|].
    intros k _. cbn [comb]. simpl INR. ring.
  - destruct s as [|s].
    + unfold D. rewrite IH. cbn [rsum]. rewrite !comb_0_r. simpl. ring.
    + unfold D. rewrite (IH (S s)), (IH s).
      rewrite (rsum_shift (fun i => (-1) ^ i * INR (comb (S N) i) * f (S s - i)%nat)).
      rewrite (rsum_shift (fun i => (-1) ^ i * INR (comb N i) * f (S s - i)%nat)). rewrite !comb_0_r.
      rewrite (rsum_ext (fun k => (-1) ^ S k * INR (comb (S N) (S k)) * f (S s - S k)%nat)
         (fun k => (-1) ^ S k * INR (comb N (S k)) * f (S s - S k)%nat - (-1) ^ k * INR (comb N k) * f (s - k)%nat)).
      * rewrite rsum_minus. ring.
      * intros k _. cbn [comb]. rewrite plus_INR. replace (S s - S k)%nat with (s - k)%nat by lia. cbn [pow]. ring.
Qed.

(** The differenced odd powers. *)
Definition F (x k : nat) : R := (2 * INR k + 1) ^ x.
Definition A (x : nat) : nat -> R := Dn (S x) (F x).
Definition shiftE (f : nat -> R) (k : nat) : R := match k with O => 0 | S k' => f k' end.

Lemma Dn_T n f k : Dn n (fun k => (2 * INR k + 1) * f k) k
  = (2 * INR k + 1) * Dn n f k + match n with O => 0 | S n' => 2 * INR (S n') * shiftE (Dn n' f) k end.
Proof.
  revert k. induction n as [|n IH]; intros k; cbn [Dn]; [ring|].
  rewrite (D_ext _ _ IH). destruct n as [|n].
  - destruct k as [|k]; unfold D, shiftE; cbn [Dn]; rewrite ?S_INR; change (INR 0) with 0; change (INR 1) with 1; ring.
  - destruct k as [|k].
    + cbn [Dn shiftE]. unfold D. unfold shiftE. change (INR 0) with 0. ring.
    + assert (ED : forall j, shiftE (Dn (S n) f) (S j) = Dn (S n) f j) by reflexivity.
      set (g := Dn n f) in *. change (Dn (S n) f) with (D g) in *. unfold D at 1. cbn [shiftE].
      destruct k as [|k]; unfold D, shiftE; rewrite ?S_INR; change (INR 0) with 0; ring.
Qed.
Lemma A_0 k : A 0 k = match k with O => 1 | S _ => 0 end.
Proof. unfold A, F. cbn [Dn]. destruct k; unfold D; cbn [pow]; ring. Qed.
Lemma A_S x k : A (S x) k = (2 * INR k + 1) * A x k + (2 * INR x + 3 - 2 * INR k) * shiftE (A x) k.
Proof.
  unfold A. rewrite (Dn_ext _ _ (fun k => (2 * INR k + 1) * F x k)) by reflexivity.
  rewrite Dn_T. change (Dn (S (S x)) (F x)) with (D (Dn (S x) (F x))). set (g := Dn (S x) (F x)).
  unfold D. destruct k; cbn [shiftE]; rewrite ?S_INR; ring.
Qed.
Lemma A_support x : forall k, (x < k)%nat -> A x k = 0.
Proof.
  induction x as [|x IH]; intros k Hk.
  - rewrite A_0. destruct k; [lia|reflexivity].
  - rewrite A_S. rewrite IH by lia. destruct k as [|k]; [lia|]. cbn [shiftE].
    destruct (Nat.eq_dec k (S x)) as [->|]; [rewrite IH by lia; ring|]. rewrite IH by lia. ring.
Qed.
Lemma A_sym x : forall k, (k <= x)%nat -> A x (x - k) = A x k.
Proof.
  induction x as [|x IH]; intros k Hk.
  - replace (0 - k)%nat with k by lia. reflexivity.
  - rewrite !A_S. rewrite minus_INR, !S_INR by lia.
    destruct k as [|k].
    + rewrite Nat.sub_0_r. cbn [shiftE]. rewrite (A_support x (S x)) by lia. change (INR 0) with 0.
      pose proof (IH 0%nat ltac:(lia)) as E0. rewrite Nat.sub_0_r in E0. rewrite E0. ring.
    + cbn [shiftE]. rewrite S_INR. replace (S x - S k)%nat with (x - k)%nat by lia. rewrite IH by lia.
      destruct (Nat.eq_dec k x) as [->|].
      * rewrite Nat.sub_diag. cbn [shiftE]. rewrite (A_support x (S x)) by lia. ring.
      * replace (x - k)%nat with (S (x - S k)) by lia. cbn [shiftE]. rewrite IH by lia. ring.
Qed.
Lemma A_sum x : rsum (A x) (S x) = 2 ^ x * INR (fact x).
Proof.
  induction x as [|x IH].
  - cbn [rsum]. rewrite A_0. simpl. ring.
  - rewrite (rsum_ext _ (fun k => (2 * INR k + 1) * A x k + (2 * INR x + 3 - 2 * INR k) * shiftE (A x) k)) by (intros; apply A_S).
    rewrite rsum_plus. rewrite (rsum_S (fun k => (2 * INR k + 1) * A x k)). rewrite (A_support x (S x)) by lia.
    rewrite (rsum_shift (fun k => (2 * INR x + 3 - 2 * INR k) * shiftE (A x) k)). cbn [shiftE].
    rewrite (rsum_ext (fun k => (2 * INR x + 3 - 2 * INR (S k)) * A x k) (fun k => (2 * INR x + 2) * A x k - (2 * INR k + 1) * A x k)).
    2:{ intros k _. rewrite S_INR. ring. }
    rewrite rsum_minus, rsum_scal, IH. rewrite fact_simpl, mult_INR, S_INR. cbn [pow]. ring.
Qed.

(** Products of symmetric, finitely supported sequences. *)
Definition supp (d : nat) (f : nat -> R) : Prop := forall k, (d < k)%nat -> f k = 0.
Definition symm (d : nat) (f : nat -> R) : Prop := forall k, (k <= d)%nat -> f (d - k)%nat = f k.
Definition ind (b : bool) : R := if b then 1 else 0.
Lemma conv_rect p q f g n : supp p f -> supp q g ->
  conv f g n = rsum (fun i => rsum (fun j => ind (i + j =? n)%nat * (f i * g j)) (S q)) (S p).
Proof.
  intros Hf Hg. unfold conv.
  rewrite (rsum_ext (fun i => rsum (fun j => ind (i + j =? n)%nat * (f i * g j)) (S q))
    (fun i => if (i <=? n)%nat then f i * g (n - i)%nat else 0)).
  - (* both sides: extend/truncate the range *)
    destruct (Nat.le_gt_cases (S n) (S p)) as [H|H].
    + rewrite (rsum_tail (fun i => if (i <=? n)%nat then f i * g (n - i)%nat else 0) (S n) (S p)) by
        (first [lia|intros k Hk; destruct (Nat.leb_spec k n); [lia|reflexivity]]).
      apply rsum_ext. intros k Hk. destruct (Nat.leb_spec k n); [reflexivity|lia].
    + rewrite (rsum_tail (fun k => f k * g (n - k)%nat) (S p) (S n)) by (try lia; intros k Hk; rewrite Hf by lia; ring).
      apply rsum_ext. intros k Hk. destruct (Nat.leb_spec k n); [reflexivity|lia].
  - intros i Hi. destruct (Nat.leb_spec i n) as [H|H].
    + destruct (Nat.le_gt_cases (n - i) q) as [Hq|Hq].
      * rewrite (rsum_single _ (S q) (n - i)%nat); [|lia|].
        -- replace (i + (n - i))%nat with n by lia. rewrite Nat.eqb_refl. unfold ind. ring.
        -- intros j Hj Hne. destruct (Nat.eqb_spec (i + j) n); [lia|]. unfold ind. ring.
      * rewrite (Hg (n - i)%nat) by easy. rewrite rsum_0; [ring|]. intros j Hj.
        destruct (Nat.eqb_spec (i + j) n); [lia|]. unfold ind. ring.
    + apply rsum_0. intros j Hj. destruct (Nat.eqb_spec (i + j) n); [lia|]. unfold ind. ring.
Qed.
Lemma conv_supp p q f g : supp p f -> supp q g -> supp (p + q) (conv f g).
Proof.
  intros Hf Hg k Hk. rewrite (conv_rect p q) by easy. apply rsum_0. intros i Hi. apply rsum_0. intros j Hj.
  destruct (Nat.eqb_spec (i + j) k); [lia|]. unfold ind. ring.
Qed.
Lemma conv_symm p q f g : supp p f -> supp q g -> symm p f -> symm q g -> symm (p + q) (conv f g).
Proof.
  intros Hf Hg Sf Sg k Hk. rewrite !(conv_rect p q) by easy. rewrite rsum_rev. apply rsum_ext. intros i Hi.
  rewrite rsum_rev. apply rsum_ext. intros j Hj.
  replace (S p - 1 - i)%nat with (p - i)%nat by lia. replace (S q - 1 - j)%nat with (q - j)%nat by lia.
  rewrite Sf, Sg by lia. f_equal. f_equal. destruct (Nat.eqb_spec (p - i + (q - j)) (p + q - k)), (Nat.eqb_spec (i + j) k); lia.
Qed.
Lemma conv_total p q f g : supp p f -> supp q g ->
  rsum (conv f g) (S (p + q)) = rsum f (S p) * rsum g (S q).
Proof.
  intros Hf Hg.
  rewrite (rsum_ext _ (fun n => rsum (fun i => rsum (fun j => ind (i + j =? n)%nat * (f i * g j)) (S q)) (S p)))
    by (intros; now apply conv_rect).
  rewrite rsum_swap. rewrite <- rsum_scal_r. apply rsum_ext. intros i Hi. rewrite rsum_swap.
  rewrite <- rsum_scal. apply rsum_ext. intros j Hj.
  rewrite (rsum_single _ (S (p + q)) (i + j)%nat); [|lia|].
  - rewrite Nat.eqb_refl. unfold ind. ring.
  - intros n Hn Hne. destruct (Nat.eqb_spec (i + j) n); [lia|]. unfold ind. ring.
Qed.

(** Sums over compositions: [S_of a m = sum over |beta| = m of prod (2 beta_j + 1)^(a_j)]. *)
Fixpoint S_of (a : list nat) : nat -> R :=
  match a with
  | [] => fun m => match m with O => 1 | S _ => 0 end
  | x :: a' => conv (F x) (S_of a')
  end.
Fixpoint P_of (a : list nat) : nat -> R :=
  match a with
  | [] => fun m => match m with O => 1 | S _ => 0 end
  | x :: a' => conv (A x) (P_of a')
  end.
Lemma S_P a k : Dn (total a + length a) (S_of a) k = P_of a k.
Proof.
  revert k. induction a as [|x a IH]; intros k; [reflexivity|].
  replace (total (x :: a) + length (x :: a))%nat with (S x + (total a + length a))%nat by (unfold total; cbn [fold_right length]; lia).
  cbn [S_of P_of]. rewrite Dn_conv. apply conv_ext; [reflexivity|exact IH].
Qed.
Lemma P_props a : supp (total a) (P_of a) /\ symm (total a) (P_of a)
  /\ rsum (P_of a) (S (total a)) = 2 ^ total a * INR (fold_right Nat.mul 1%nat (map fact a)).
Proof.
  induction a as [|x a (H1 & H2 & H3)].
  - split; [|split].
    + intros [|k] Hk; [unfold total in Hk; cbn in Hk; lia|reflexivity].
    + intros [|k] Hk; [reflexivity|unfold total in Hk; cbn in Hk; lia].
    + unfold total; cbn. ring.
  - replace (total (x :: a)) with (x + total a)%nat by reflexivity. cbn [P_of map fold_right].
    pose proof (A_support x) as AS. pose proof (A_sym x) as AY. split; [|split].
    + now apply conv_supp.
    + now apply conv_symm.
    + rewrite conv_total by easy. rewrite A_sum, H3, mult_INR, pow_add. ring.
Qed.
Lemma half_sum f s : symm (2 * s + 1) f -> rsum f (S s) = rsum f (S (2 * s + 1)) / 2.
Proof.
  intros H. replace (S (2 * s + 1)) with (S s + S s)%nat by lia. rewrite rsum_app.
  replace (rsum (fun k => f (S s + k)%nat) (S s)) with (rsum f (S s)); [field|].
  rewrite rsum_rev. apply rsum_ext. intros k Hk. rewrite <- H by lia. f_equal. lia.
Qed.

(** The identity for exponents of total degree 2s+1. *)
Lemma gm_identity s a : total a = (2 * s + 1)%nat -> (1 <= length a)%nat ->
  rsum (fun i => (-1) ^ i * INR (comb (2 * s + length a) i) * S_of a (s - i)%nat) (S s)
  = 4 ^ s * INR (fold_right Nat.mul 1%nat (map fact a)).
Proof.
  intros Ha Hl. rewrite <- Dn_binomial. destruct (P_props a) as (H1 & H2 & H3). rewrite Ha in *.
  rewrite <- (D_sum (Dn (2 * s + length a) (S_of a))).
  rewrite (rsum_ext _ (P_of a)).
  - rewrite half_sum by easy. rewrite H3. rewrite pow_add, pow_mult. replace (2 ^ 2) with 4 by ring. field.
  - intros k _. rewrite <- S_P, Ha. change (D (Dn (2 * s + length a) (S_of a)) k) with (Dn (S (2 * s + length a)) (S_of a) k).
    f_equal. lia.
Qed.
