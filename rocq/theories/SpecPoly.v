(** * Polynomials in several variables (specification vocabulary) *)
From Coq Require Import List Arith Bool Reals Lia Lra.
From Verif Require Import RSum.
Import ListNotations.
Local Open Scope R_scope.

(** x_1^e_1 ... x_n^e_n *)
Fixpoint monoval (e : list nat) (x : list R) : R :=
  match e, x with
  | k :: e', t :: x' => t ^ k * monoval e' x'
  | _, _ => 1
  end.

(** Sum of coefficient times monomial. *)
Definition polyval (ts : list (R * list nat)) (x : list R) : R :=
  fold_right (fun t acc => fst t * monoval (snd t) x + acc) 0 ts.

(** [f] is a polynomial in [n] variables of total degree at most [d]. *)
Definition is_poly (n d : nat) (f : list R -> R) : Prop :=
  exists ts, Forall (fun t : R * list nat =>
                       length (snd t) = n /\ (fold_right plus O (snd t) <= d)%nat) ts
    /\ forall x, length x = n -> f x = polyval ts x.

Lemma polyval_app l1 l2 x : polyval (l1 ++ l2) x = polyval l1 x + polyval l2 x.
Proof.
  unfold polyval. induction l1 as [|t l IH]; cbn [app fold_right]; [ring|]. rewrite IH. ring.
Qed.

Lemma is_poly_ext n d f g : (forall x, length x = n -> f x = g x) -> is_poly n d f -> is_poly n d g.
Proof.
  intros E (ts & H1 & H2). exists ts. split; [easy|]. intros x Hx. rewrite <- E by easy. auto.
Qed.

Lemma is_poly_weaken n d d' f : (d <= d')%nat -> is_poly n d f -> is_poly n d' f.
Proof.
  intros Hd (ts & H1 & H2). exists ts. split; [|easy].
  eapply Forall_impl; [|exact H1]. cbv beta. intros t [? ?]. split; [easy|lia].
Qed.

Lemma is_poly_plus n d f g : is_poly n d f -> is_poly n d g -> is_poly n d (fun x => f x + g x).
Proof.
  intros (l1 & H1 & E1) (l2 & H2 & E2). exists (l1 ++ l2). split.
  - apply Forall_app; easy.
  - intros x Hx. rewrite polyval_app, E1, E2; easy.
Qed.

Lemma is_poly_scal n d c f : is_poly n d f -> is_poly n d (fun x => c * f x).
Proof.
  intros (l & H & E). exists (map (fun t => (c * fst t, snd t)) l). split.
  - apply Forall_map. eapply Forall_impl; [|exact H]. easy.
  - intros x Hx. rewrite E by easy. unfold polyval.
    clear. induction l as [|t l IH]; cbn [map fold_right fst snd]; [ring|]. rewrite <- IH. ring.
Qed.

Lemma monoval_repeat0 n x : monoval (repeat O n) x = 1.
Proof.
  revert x. induction n as [|n IH]; intros [|t x]; cbn [repeat monoval pow]; try easy.
  rewrite IH. ring.
Qed.

Lemma sum_repeat0 n : fold_right plus O (repeat O n) = O.
Proof. induction n; simpl; auto. Qed.

Lemma is_poly_const n d c : is_poly n d (fun _ => c).
Proof.
  exists [(c, repeat O n)]. split.
  - constructor; [|constructor]. cbn [snd]. rewrite repeat_length, sum_repeat0. split; lia.
  - intros x _. unfold polyval. cbn [fold_right fst snd]. rewrite monoval_repeat0. ring.
Qed.

Fixpoint addexp (e1 e2 : list nat) : list nat :=
  match e1, e2 with a :: r, b :: s => (a + b)%nat :: addexp r s | _, _ => [] end.

Lemma monoval_add e1 e2 x : length e1 = length x -> length e2 = length x ->
  monoval (addexp e1 e2) x = monoval e1 x * monoval e2 x.
Proof.
  revert e2 x. induction e1 as [|a e1 IH]; intros [|b e2] [|t x] H1 H2; try discriminate;
    cbn [addexp monoval]; try ring.
  simpl in *. rewrite IH by lia. rewrite pow_add. ring.
Qed.

Lemma addexp_length e1 e2 n : length e1 = n -> length e2 = n -> length (addexp e1 e2) = n.
Proof.
  revert e2 n. induction e1 as [|a e1 IH]; intros [|b e2] n H1 H2; simpl in *; try lia.
  destruct n as [|n]; [lia|]. f_equal. apply IH; lia.
Qed.

Lemma addexp_sum e1 e2 : length e1 = length e2 ->
  fold_right plus O (addexp e1 e2) = (fold_right plus O e1 + fold_right plus O e2)%nat.
Proof.
  revert e2. induction e1 as [|a e1 IH]; intros [|b e2] H; simpl in *; try lia.
  rewrite IH by lia. lia.
Qed.

Lemma is_poly_mult n d1 d2 f g : is_poly n d1 f -> is_poly n d2 g ->
  is_poly n (d1 + d2) (fun x => f x * g x).
Proof.
  intros (l1 & H1 & E1) (l2 & H2 & E2).
  exists (flat_map (fun t => map (fun u => (fst t * fst u, addexp (snd t) (snd u))) l2) l1). split.
  - apply Forall_forall. intros t Ht. apply in_flat_map in Ht. destruct Ht as (t1 & I1 & Ht).
    apply in_map_iff in Ht. destruct Ht as (t2 & <- & I2). cbn [snd].
    rewrite Forall_forall in H1, H2. destruct (H1 _ I1), (H2 _ I2). split.
    + now apply addexp_length.
    + rewrite addexp_sum by congruence. lia.
  - intros x Hx. rewrite E1, E2 by easy. clear E1 E2.
    induction l1 as [|t l1 IH]; [unfold polyval; simpl; ring|].
    cbn [flat_map]. rewrite polyval_app. inversion H1 as [|? ? Ht H1']; subst.
    rewrite <- IH by easy.
    assert (E : polyval (map (fun u => (fst t * fst u, addexp (snd t) (snd u))) l2) x
                = fst t * monoval (snd t) x * polyval l2 x).
    { clear IH H1 H1'. induction l2 as [|u l2 IH]; [unfold polyval; simpl; ring|].
      inversion H2; subst. unfold polyval in *. cbn [map fold_right fst snd]. rewrite IH by easy.
      rewrite monoval_add by (destruct Ht; intuition congruence). ring. }
    rewrite E. unfold polyval. cbn [fold_right]. ring.
Qed.

Lemma is_poly_pow n d f k : is_poly n d f -> is_poly n (k * d) (fun x => f x ^ k).
Proof.
  intros H. induction k as [|k IH]; cbn [pow Nat.mul]; [apply is_poly_const|].
  apply is_poly_mult; easy.
Qed.

Lemma is_poly_rsum n d (f : nat -> list R -> R) N : (forall k, (k < N)%nat -> is_poly n d (f k)) ->
  is_poly n d (fun x => rsum (fun k => f k x) N).
Proof.
  induction N as [|N IH]; intros H; cbn [rsum]; [apply is_poly_const|].
  apply is_poly_plus; [apply IH; auto|apply H; auto].
Qed.

Lemma is_poly_coord n i : (i < n)%nat -> is_poly n 1 (fun x => nth i x 0).
Proof.
  intros Hi. exists [(1, repeat O i ++ 1%nat :: repeat O (n - 1 - i))]. split.
  - constructor; [|constructor]. cbn [snd]. rewrite app_length, repeat_length. cbn [length].
    rewrite repeat_length, fold_right_app. cbn [fold_right]. rewrite sum_repeat0.
    split; [lia|]. clear. induction i; simpl in *; lia.
  - intros x Hx. unfold polyval. cbn [fold_right fst snd].
    assert (E : forall i x, (i < length x)%nat -> forall m,
              monoval (repeat O i ++ 1%nat :: repeat O m) x = nth i x 0).
    { clear. induction i as [|i IH]; intros [|t x] Hi m; simpl in Hi; try lia;
        cbn [repeat app monoval nth].
      - rewrite monoval_repeat0. simpl. ring.
      - rewrite IH by lia. simpl. ring. }
    rewrite E by lia. ring.
Qed.

Lemma is_poly_nonneg_deg n f d : is_poly n 0 f -> is_poly n d f.
Proof. apply is_poly_weaken. lia. Qed.
