(** * Checking the moments of a rule in fixed-point arithmetic

    Tools for the proofs about the rule tables: the weighted power sums of a rule are
    computed with machine integers and compared with the moments of the element; the
    lemmas bound the distance to the exact real sums. *)
From Coq Require Import List Arith Bool ZArith Reals Lra Lia Uint63.
From Verif Require Import RSum SpecIndex SpecPoly.
Import ListNotations.
Local Open Scope R_scope.

(** An integer [F] stands for the fraction F / 2^63. *)
Definition fxv (F : int) : R := IZR (to_Z F) / IZR wB.
Definition approx (m : R) (F : int) (v : R) : Prop := Rabs (fxv F - v) <= m / IZR wB.

Lemma wB_pos : 0 < IZR wB.
Proof. apply IZR_lt. reflexivity. Qed.
Lemma fxv_range F : 0 <= fxv F < 1.
Proof.
  unfold fxv. pose proof (to_Z_bounded F) as [H1 H2]. pose proof wB_pos.
  apply IZR_le in H1. apply IZR_lt in H2. split.
  - apply Rmult_le_reg_r with (IZR wB); [easy|]. unfold Rdiv. rewrite Rmult_assoc, Rinv_l by lra. lra.
  - apply Rmult_lt_reg_r with (IZR wB); [easy|]. unfold Rdiv. rewrite Rmult_assoc, Rinv_l by lra. lra.
Qed.

(** ** Products *)
Definition mf (a b : int) : int := fst (mulc a b).
Lemma mf_value a b : exists r, 0 <= r < 1 / IZR wB /\ fxv (mf a b) = fxv a * fxv b - r.
Proof.
  pose proof (mulc_spec a b) as E. fold (mf a b) in E. set (lo := snd (mulc a b)) in E.
  exists (fxv lo / IZR wB). pose proof wB_pos. pose proof (fxv_range lo). split.
  - unfold Rdiv. split; [apply Rmult_le_pos; [easy|left; now apply Rinv_0_lt_compat]|].
    apply Rmult_lt_compat_r; [now apply Rinv_0_lt_compat|easy].
  - unfold fxv. apply (f_equal IZR) in E. rewrite plus_IZR, !mult_IZR in E.
    replace (IZR (to_Z a) / IZR wB * (IZR (to_Z b) / IZR wB)) with (IZR (to_Z a) * IZR (to_Z b) / (IZR wB * IZR wB)) by (field; lra).
    rewrite E. field. lra.
Qed.
Lemma mf_le a b : (to_Z (mf a b) <= to_Z a)%Z.
Proof.
  pose proof (mulc_spec a b) as E. fold (mf a b) in E. pose proof (to_Z_bounded a). pose proof (to_Z_bounded b).
  pose proof (to_Z_bounded (snd (mulc a b))). nia.
Qed.
Lemma mf_approx m F v X x : approx m F v -> approx 2 X x -> 0 <= v <= 1 -> approx (m + 3) (mf F X) (v * x).
Proof.
  unfold approx. intros HF HX Hv. destruct (mf_value F X) as (r & Hr & ->).
  pose proof (fxv_range X). pose proof (fxv_range F). pose proof wB_pos as HB.
  replace (fxv F * fxv X - r - v * x) with ((fxv F - v) * fxv X + (v * (fxv X - x) + - r)) by ring.
  eapply Rle_trans; [apply Rabs_triang|]. replace ((m + 3) / IZR wB) with (m / IZR wB + (2 / IZR wB + 1 / IZR wB)) by (field; lra).
  apply Rplus_le_compat.
  - rewrite Rabs_mult, (Rabs_pos_eq (fxv X)) by lra. pose proof (Rabs_pos (fxv F - v)). nra.
  - eapply Rle_trans; [apply Rabs_triang|]. apply Rplus_le_compat.
    + rewrite Rabs_mult, (Rabs_pos_eq v) by lra. pose proof (Rabs_pos (fxv X - x)). nra.
    + rewrite Rabs_Ropp, Rabs_pos_eq by lra. lra.
Qed.

(** ** Lists *)
Fixpoint mul2 (l m : list int) : list int := match l, m with a :: l', b :: m' => mf a b :: mul2 l' m' | _, _ => [] end.
Fixpoint rmul2 (l m : list R) : list R := match l, m with a :: l', b :: m' => a * b :: rmul2 l' m' | _, _ => [] end.
Fixpoint isum (l : list int) (acc : int) : int := match l with [] => acc | a :: l' => isum l' (acc + a)%uint63 end.
Definition zsum (l : list int) : Z := fold_right (fun a s => (to_Z a + s)%Z) 0%Z l.
Definition lsum (l : list R) : R := fold_right Rplus 0 l.
Definition unitv (v : R) : Prop := 0 <= v <= 1.

Lemma zsum_nonneg l : (0 <= zsum l)%Z.
Proof. unfold zsum. induction l as [|a l IH]; cbn [fold_right]; [lia|]. pose proof (to_Z_bounded a). lia. Qed.
Lemma isum_value l : forall a, (to_Z a + zsum l < wB)%Z -> to_Z (isum l a) = (to_Z a + zsum l)%Z.
Proof.
  induction l as [|b l IH]; intros a H; cbn [isum]; [cbn; lia|].
  change (zsum (b :: l)) with (to_Z b + zsum l)%Z in *. pose proof (zsum_nonneg l). pose proof (to_Z_bounded a). pose proof (to_Z_bounded b).
  assert (E : to_Z (a + b)%uint63 = (to_Z a + to_Z b)%Z) by (rewrite add_spec; apply Z.mod_small; lia).
  rewrite IH; rewrite E; lia.
Qed.
Lemma mul2_zsum l : forall m, (zsum (mul2 l m) <= zsum l)%Z.
Proof.
  induction l as [|a l IH]; intros [|b m]; cbn [mul2]; try lia.
  - apply zsum_nonneg.
  - change (to_Z (mf a b) + zsum (mul2 l m) <= to_Z a + zsum l)%Z. pose proof (mf_le a b). pose proof (IH m). lia.
Qed.
Lemma mul2_approx m : forall F v, Forall2 (approx m) F v -> Forall unitv v -> forall X x, Forall2 (approx 2) X x -> Forall unitv x ->
  Forall2 (approx (m + 3)) (mul2 F X) (rmul2 v x) /\ Forall unitv (rmul2 v x).
Proof.
  induction 1 as [|f v F vs H HF IH]; intros Hv X x HX Hx; cbn [mul2 rmul2]; [split; constructor|].
  inversion Hv as [|? ? Hv1 Hv2]; subst. destruct HX as [|g y X ys H1 H2]; cbn [mul2 rmul2]; [split; constructor|].
  inversion Hx as [|? ? Hx1 Hx2]; subst. destruct (IH Hv2 _ _ H2 Hx2) as (I1 & I2). split; constructor; auto.
  - now apply mf_approx.
  - unfold unitv in *. split; [nra|]. nra.
Qed.
Lemma approx_sum m F v : Forall2 (approx m) F v -> Rabs (IZR (zsum F) / IZR wB - lsum v) <= INR (length v) * m / IZR wB.
Proof.
  pose proof wB_pos as HB. induction 1 as [|f x F vs H HF IH].
  - unfold zsum, lsum. cbn [fold_right length INR]. replace (0 / IZR wB - 0) with 0 by (field; lra). rewrite Rabs_R0. unfold Rdiv. rewrite !Rmult_0_l. lra.
  - change (zsum (f :: F)) with (to_Z f + zsum F)%Z. change (lsum (x :: vs)) with (x + lsum vs). cbn [length]. rewrite plus_IZR, S_INR.
    replace ((IZR (to_Z f) + IZR (zsum F)) / IZR wB - (x + lsum vs)) with ((fxv f - x) + (IZR (zsum F) / IZR wB - lsum vs)) by (unfold fxv; field; lra).
    eapply Rle_trans; [apply Rabs_triang|]. unfold approx in H.
    replace ((INR (length vs) + 1) * m / IZR wB) with (m / IZR wB + INR (length vs) * m / IZR wB) by (field; lra). now apply Rplus_le_compat.
Qed.

(** ** Weighted monomials *)
Fixpoint iters (k : nat) (x acc : list int) : list int := match k with O => acc | S k' => iters k' x (mul2 acc x) end.
Fixpoint riters (k : nat) (x acc : list R) : list R := match k with O => acc | S k' => riters k' x (rmul2 acc x) end.
Fixpoint prods (rows : list (list int)) (e : list nat) (acc : list int) : list int :=
  match rows, e with x :: rows', k :: e' => prods rows' e' (iters k x acc) | _, _ => acc end.
Fixpoint rprods (rows : list (list R)) (e : list nat) (acc : list R) : list R :=
  match rows, e with x :: rows', k :: e' => rprods rows' e' (riters k x acc) | _, _ => acc end.

Lemma iters_approx k : forall m F v X x, Forall2 (approx m) F v -> Forall unitv v -> Forall2 (approx 2) X x -> Forall unitv x ->
  Forall2 (approx (m + 3 * INR k)) (iters k X F) (riters k x v) /\ Forall unitv (riters k x v).
Proof.
  induction k as [|k IH]; intros m F v X x HF Hv HX Hx; cbn [iters riters].
  - rewrite Rmult_0_r, Rplus_0_r. auto.
  - rewrite S_INR. destruct (mul2_approx m F v HF Hv X x HX Hx) as (A & B).
    replace (m + 3 * (INR k + 1)) with (m + 3 + 3 * INR k) by ring. now apply IH.
Qed.
Lemma prods_approx e : forall m rows rs F v, Forall2 (Forall2 (approx 2)) rows rs -> Forall (Forall unitv) rs ->
  Forall2 (approx m) F v -> Forall unitv v -> length e = length rows ->
  Forall2 (approx (m + 3 * INR (total e))) (prods rows e F) (rprods rs e v).
Proof.
  induction e as [|k e IH]; intros m rows rs F v HR HU HF Hv L.
  - destruct rows; [|discriminate]. inversion HR; subst. cbn. rewrite Rmult_0_r, Rplus_0_r. exact HF.
  - destruct rows as [|X rows]; [discriminate|]. inversion HR as [|? x ? rs' HX HR']; subst. inversion HU as [|? ? Hx HU']; subst.
    cbn [prods rprods]. destruct (iters_approx k m F v X x HF Hv HX Hx) as (A & B).
    replace (m + 3 * INR (total (k :: e))) with (m + 3 * INR k + 3 * INR (total e)) by (unfold total; cbn [fold_right]; rewrite plus_INR; ring).
    apply IH; auto.
Qed.
Lemma iters_zsum k : forall x acc, (zsum (iters k x acc) <= zsum acc)%Z.
Proof. induction k as [|k IH]; intros x acc; cbn [iters]; [lia|]. pose proof (IH x (mul2 acc x)). pose proof (mul2_zsum acc x). lia. Qed.
Lemma prods_zsum e : forall rows acc, (zsum (prods rows e acc) <= zsum acc)%Z.
Proof.
  induction e as [|k e IH]; intros [|x rows] acc; cbn [prods]; try lia.
  pose proof (IH rows (iters k x acc)). pose proof (iters_zsum k x acc). lia.
Qed.
Lemma iters_add j : forall k x acc, iters j x (iters k x acc) = iters (k + j) x acc.
Proof.
  intros k. revert j. induction k as [|k IH]; intros j x acc; [reflexivity|]. cbn [iters Nat.add]. now rewrite IH.
Qed.

(** The real sums, point by point. *)
Lemma rmul2_length l : forall m, length l = length m -> length (rmul2 l m) = length l.
Proof. induction l as [|a l IH]; intros [|b m] L; try discriminate; cbn [rmul2 length]; auto. Qed.
Lemma rmul2_nth l : forall m i, length l = length m -> (i < length l)%nat -> nth i (rmul2 l m) 0 = nth i l 0 * nth i m 0.
Proof.
  induction l as [|a l IH]; intros [|b m] i L Hi; try discriminate; cbn [length] in *; [lia|].
  destruct i as [|i]; cbn [rmul2 nth]; [reflexivity|]. apply IH; lia.
Qed.
Lemma riters_spec k : forall x acc, length acc = length x -> length (riters k x acc) = length acc
  /\ forall i, (i < length acc)%nat -> nth i (riters k x acc) 0 = nth i acc 0 * nth i x 0 ^ k.
Proof.
  induction k as [|k IH]; intros x acc L; cbn [riters pow].
  - split; [reflexivity|]. intros; ring.
  - pose proof (rmul2_length acc x L) as L2. destruct (IH x (rmul2 acc x)) as (A & B); [congruence|].
    split; [congruence|]. intros i Hi. rewrite B by lia. rewrite rmul2_nth by easy. ring.
Qed.
Lemma rprods_spec e : forall rs acc, Forall (fun r : list R => length r = length acc) rs -> length e = length rs ->
  length (rprods rs e acc) = length acc
  /\ forall i, (i < length acc)%nat -> nth i (rprods rs e acc) 0 = nth i acc 0 * monoval e (map (fun r => nth i r 0) rs).
Proof.
  induction e as [|k e IH]; intros rs acc HL L.
  - destruct rs; [|discriminate]. cbn. split; [reflexivity|]. intros; ring.
  - destruct rs as [|x rs]; [discriminate|]. inversion HL as [|? ? H1 H2]; subst. cbn [rprods map monoval].
    destruct (riters_spec k x acc) as (A & B); [easy|].
    destruct (IH rs (riters k x acc)) as (I1 & I2).
    + eapply Forall_impl; [|exact H2]. cbv beta. intros; congruence.
    + cbn in L. lia.
    + split; [congruence|]. intros i Hi. rewrite I2 by lia. rewrite B by lia. ring.
Qed.

(** ** The moments, in units of 2^-56 *)
Definition B56 : Z := 72057594037927936.
Definition close (j : nat) (T : int) (v : R) : Prop := Rabs (IZR (to_Z T) / IZR B56 - v) <= INR j / IZR B56.
Definition within (tol : int) (S T : int) : bool :=
  let S' := (S >> 6)%uint63 in ((S' <=? T + tol) && (T <=? S' + tol))%uint63.

Section Moments.
  (** [mom pre]: the moment for the exponents [pre], last one first; [next T0 T k s] updates it
      from k to k + 1 where the exponents sum to s. *)
  Context (mom : list nat -> R) (next : int -> int -> int -> int -> int) (dmax : nat) (test : int -> int -> bool).
  Fixpoint moments (rows : list (list int)) (n : nat) (acc : list int) (T s : int) {struct rows} : bool :=
    match rows with
    | [] => test (isum acc 0%uint63) T
    | x :: rows' =>
        (fix loop (f : nat) (acc : list int) (Tk k s : int) {struct f} : bool :=
           if moments rows' f acc Tk s
           then match f with
                | O => true
                | S f' => loop f' (mul2 acc x) (next T Tk k s) (k + 1)%uint63 (s + 1)%uint63
                end
           else false) n acc T 0%uint63 s
    end.

  Definition goodT (pre : list nat) (T : int) : Prop := close (1 + total pre) T (mom pre) /\ (to_Z T <= B56)%Z.
  Hypothesis mom0 : forall pre, mom (0%nat :: pre) = mom pre.
  Hypothesis next_ok : forall pre k T0 T ki si, goodT pre T0 -> goodT (k :: pre) T ->
    to_Z ki = Z.of_nat k -> to_Z si = Z.of_nat (total (k :: pre)) -> (total (k :: pre) < dmax)%nat -> goodT (S k :: pre) (next T0 T ki si).
  Hypothesis dmax_small : (dmax <= 60)%nat.

  Lemma moments_spec rows : forall n acc T s pre, moments rows n acc T s = true -> goodT pre T ->
    to_Z s = Z.of_nat (total pre) -> (total pre + n <= dmax)%nat ->
    forall e, length e = length rows -> (total e <= n)%nat ->
    exists T', test (isum (prods rows e acc) 0%uint63) T' = true /\ goodT (rev e ++ pre) T'.
  Proof.
    induction rows as [|x rows IH]; intros n acc T s pre H HT Hs Hn e L Le.
    - destruct e; [|discriminate]. exists T. auto.
    - destruct e as [|k e]; [discriminate|]. cbn [prods rev]. rewrite <- app_assoc. cbn [app].
      assert (G : forall f j accj Tk ki si,
        (fix loop (f : nat) (acc : list int) (Tk k s : int) {struct f} : bool :=
           if moments rows f acc Tk s
           then match f with
                | O => true
                | S f' => loop f' (mul2 acc x) (next T Tk k s) (k + 1)%uint63 (s + 1)%uint63
                end
           else false) f accj Tk ki si = true ->
        goodT (j :: pre) Tk -> to_Z ki = Z.of_nat j -> to_Z si = Z.of_nat (total (j :: pre)) -> (total (j :: pre) + f <= dmax)%nat ->
        forall i, (i + total e <= f)%nat ->
        exists T', test (isum (prods rows e (iters i x accj)) 0%uint63) T' = true /\ goodT (rev e ++ (j + i)%nat :: pre) T').
      { induction f as [|f IHf]; intros j accj Tk ki si HL HTk Hki Hsi Hj i Hi.
        - destruct (moments rows 0 accj Tk si) eqn:E; [|discriminate]. assert (i = 0%nat) by lia. subst i. cbn [iters]. rewrite Nat.add_0_r.
          apply (IH 0%nat accj Tk si (j :: pre) E HTk Hsi Hj e); [cbn in L; lia|lia].
        - destruct (moments rows (S f) accj Tk si) eqn:E; [|discriminate]. destruct i as [|i].
          + cbn [iters]. rewrite Nat.add_0_r. apply (IH (S f) accj Tk si (j :: pre) E HTk Hsi Hj e); [cbn in L; lia|lia].
          + cbn [iters]. assert (BW : (Z.of_nat 100 < wB)%Z) by reflexivity.
            assert (TT : (total (S j :: pre) = 1 + total (j :: pre))%nat) by (unfold total; cbn [fold_right]; lia).
            assert (J : (j <= total (j :: pre))%nat) by (unfold total; cbn [fold_right]; lia).
            destruct (IHf (S j) (mul2 accj x) (next T Tk ki si) (ki + 1)%uint63 (si + 1)%uint63 HL) with (i := i) as (T' & H1 & H2).
            * apply next_ok; auto. lia.
            * rewrite add_spec, Hki. change (to_Z 1) with 1%Z. rewrite Z.mod_small; lia.
            * rewrite add_spec, Hsi. change (to_Z 1) with 1%Z. rewrite Z.mod_small; lia.
            * lia.
            * lia.
            * exists T'. split; [exact H1|]. replace (j + S i)%nat with (S j + i)%nat by lia. exact H2. }
      cbn [moments] in H. destruct (G n 0%nat acc T 0%uint63 s H) with (i := k) as (T' & H1 & H2).
      + destruct HT as [C D]. split; [|exact D]. rewrite mom0. exact C.
      + reflexivity.
      + exact Hs.
      + exact Hn.
      + revert Le. unfold total. cbn [fold_right]. lia.
      + exists T'. auto.
  Qed.
End Moments.

Lemma within_spec tol S T : within tol S T = true -> (to_Z T <= B56)%Z -> (to_Z tol <= B56)%Z ->
  Rabs (IZR (to_Z S) / IZR wB * 2 - IZR (to_Z T) / IZR B56) <= (IZR (to_Z tol) + 1) / IZR B56.
Proof.
  unfold within. intros H HT Htol. apply andb_true_iff in H. destruct H as (H1 & H2).
  apply leb_spec in H1, H2. rewrite add_spec in H1, H2.
  assert (E : to_Z (S >> 6)%uint63 = (to_Z S / 64)%Z) by (rewrite lsr_spec; reflexivity). rewrite E in H1, H2.
  pose proof (to_Z_bounded S) as BS. pose proof (to_Z_bounded T) as BT. pose proof (to_Z_bounded tol) as Bt.
  assert (HW : wB = (128 * B56)%Z) by reflexivity.
  assert (D1 := Z.mul_div_le (to_Z S) 64 eq_refl). assert (D2 := Z.mul_succ_div_gt (to_Z S) 64 eq_refl).
  assert (BB : (0 < B56)%Z) by reflexivity.
  rewrite Z.mod_small in H1 by lia. rewrite Z.mod_small in H2 by lia.
  assert (A1 : (to_Z S <= 64 * (to_Z T + to_Z tol + 1))%Z) by lia.
  assert (A2 : (64 * (to_Z T - to_Z tol - 1) <= to_Z S)%Z) by lia.
  apply IZR_le in A1, A2. rewrite mult_IZR, !plus_IZR in A1. rewrite mult_IZR, !minus_IZR in A2.
  rewrite HW, mult_IZR. assert (P : 0 < IZR B56) by now apply IZR_lt.
  replace (IZR (to_Z S) / (128 * IZR B56) * 2 - IZR (to_Z T) / IZR B56) with ((IZR (to_Z S) / 64 - IZR (to_Z T)) / IZR B56) by (field; lra).
  unfold Rdiv at 1. rewrite Rabs_mult, (Rabs_pos_eq (/ IZR B56)) by (left; now apply Rinv_0_lt_compat).
  apply Rmult_le_compat_r; [left; now apply Rinv_0_lt_compat|]. apply Rabs_le. lra.
Qed.
