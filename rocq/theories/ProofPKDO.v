(** * The PKDO functions as polynomials; homogenised Jacobi polynomials *)
From Coq Require Import List Arith Bool ZArith Reals Lia Lra.
From Coquelicot Require Import Coquelicot.
From Verif Require Import Py ModelModes RSum IntFacts SpecPoly ProofGamma ProofJacobi ProofJacobi2
  ProofJacobiOrtho.
Import ListNotations.
Local Open Scope R_scope.

Definition hj (al be : R) (n : nat) (y z : R) : R :=
  kap al be n * rsum (fun k => qc al (al + be) n k * y ^ k * z ^ (n - k)) (S n).
Definition hj_dy (al be : R) (n : nat) (y z : R) : R :=
  kap al be n * rsum (fun k => qc al (al + be) n k * (INR k * y ^ pred k) * z ^ (n - k)) (S n).
Definition hj_dz (al be : R) (n : nat) (y z : R) : R :=
  kap al be n * rsum (fun k => qc al (al + be) n k * y ^ k * (INR (n - k) * z ^ pred (n - k))) (S n).
Definition djp (al be : R) (n : nat) (a : R) : R := kap al be n * dF al (al + be) n a.

Lemma jp_deriv al be n x : is_derive (jp al be n) x (djp al be n x).
Proof. unfold jp, djp. apply (is_derive_scal (F al (al + be) n)). apply F_dF. Qed.

Lemma jp_cont al be n x : continuous (jp al be n) x.
Proof. apply ex_derive_cont. eexists. apply jp_deriv. Qed.

Lemma grad_djp al be n x : -1 < al -> -1 < be -> exact_params al be ->
  grad_jacobi Rops al be n x = djp al be n x.
Proof.
  intros Ha Hb He.
  pose proof (grad_jacobi_correct al be n x Ha Hb He) as H1.
  assert (H2 : is_derive (jacobi Rops al be n) x (djp al be n x)).
  { apply is_derive_ext with (jp al be n); [|apply jp_deriv].
    intros t. symmetry. apply jacobi_jp; try easy. now apply jac_gamma0_pos. }
  rewrite <- (is_derive_unique _ _ _ H1). apply (is_derive_unique _ _ _ H2).
Qed.

Lemma hj_val al be n y z a : 2 * y = (a - 1) * z -> hj al be n y z = jp al be n a * z ^ n.
Proof.
  intros H. unfold hj, jp, F. rewrite Rmult_assoc, <- rsum_scal_r. f_equal.
  apply rsum_ext. intros k Hk.
  replace y with ((a - 1) / 2 * z) by lra.
  replace (z ^ n) with (z ^ k * z ^ (n - k)) by (rewrite <- pow_add; f_equal; lia).
  rewrite Rpow_mult_distr. ring.
Qed.

Lemma hj_dy_val al be n y z a : 2 * y = (a - 1) * z ->
  hj_dy al be (S n) y z = 2 * djp al be (S n) a * z ^ n.
Proof.
  intros H. unfold hj_dy, djp, dF.
  rewrite (rsum_shift _ (S n)). change (INR 0) with 0. rewrite Rmult_0_l, Rmult_0_r, Rmult_0_l, Rplus_0_l.
  transitivity (kap al be (S n) * (rsum (fun k => qc al (al + be) (S n) (S k)
      * (INR (S k) / 2 * ((a - 1) / 2) ^ k)) (S n) * (2 * z ^ n))); [|ring].
  f_equal. rewrite <- rsum_scal_r. apply rsum_ext. intros k Hk. cbn [Nat.pred].
  replace y with ((a - 1) / 2 * z) by lra.
  replace (S n - S k)%nat with (n - k)%nat by lia.
  replace (z ^ n) with (z ^ k * z ^ (n - k)) by (rewrite <- pow_add; f_equal; lia).
  rewrite Rpow_mult_distr. field.
Qed.

Lemma hj_dy_0 al be y z : hj_dy al be 0 y z = 0.
Proof. unfold hj_dy. cbn [rsum INR]. ring. Qed.
Lemma hj_dz_0 al be y z : hj_dz al be 0 y z = 0.
Proof. unfold hj_dz. cbn [rsum INR Nat.sub]. ring. Qed.

Lemma hj_dz_val al be n y z a : 2 * y = (a - 1) * z ->
  hj_dz al be (S n) y z = (INR (S n) * jp al be (S n) a - (a - 1) * djp al be (S n) a) * z ^ n.
Proof.
  intros H. unfold hj_dz, djp, jp.
  transitivity (kap al be (S n) * ((INR (S n) * F al (al + be) (S n) a
     - (a - 1) * dF al (al + be) (S n) a) * z ^ n)); [|ring].
  f_equal.
  assert (E : (a - 1) * dF al (al + be) (S n) a
     = rsum (fun k => INR k * (qc al (al + be) (S n) k * ((a - 1) / 2) ^ k)) (S (S n))).
  { rewrite rsum_shift. change (INR 0) with 0. rewrite Rmult_0_l, Rplus_0_l. unfold dF. rewrite <- rsum_scal.
    apply rsum_ext. intros k _. cbn [pow]. field. }
  rewrite E. unfold F. rewrite <- rsum_scal, <- rsum_minus, <- rsum_scal_r.
  apply rsum_ext. intros k Hk.
  replace y with ((a - 1) / 2 * z) by lra. rewrite Rpow_mult_distr.
  destruct (Nat.eq_dec k (S n)) as [->|Hne].
  - rewrite Nat.sub_diag. simpl (INR 0). ring.
  - replace (z ^ n) with (z ^ k * z ^ pred (S n - k)) by (rewrite <- pow_add; f_equal; lia).
    rewrite (minus_INR (S n) k) by lia. ring.
Qed.

Lemma is_derive_pow_c (f : R -> R) x df k : is_derive f x df ->
  is_derive (fun t => f t ^ k) x (INR k * f x ^ pred k * df).
Proof.
  intros H. replace (INR k * f x ^ pred k * df) with (INR k * df * f x ^ pred k) by ring.
  now apply is_derive_pow.
Qed.

Lemma isD_mult (f g : R -> R) x df dg : is_derive f x df -> is_derive g x dg ->
  is_derive (fun t => f t * g t) x (df * g x + f x * dg).
Proof. intros H1 H2. apply (is_derive_mult f g x df dg H1 H2). intros n m. apply Rmult_comm. Qed.

Lemma isD_eq (f : R -> R) (x d d' : R) : is_derive f x d -> d = d' -> is_derive f x d'.
Proof. now intros H <-. Qed.

Lemma hj_comp al be n (Y Z : R -> R) x dY dZ : is_derive Y x dY -> is_derive Z x dZ ->
  is_derive (fun t => hj al be n (Y t) (Z t)) x
    (hj_dy al be n (Y x) (Z x) * dY + hj_dz al be n (Y x) (Z x) * dZ).
Proof.
  intros HY HZ. unfold hj.
  eapply isD_eq.
  - apply (is_derive_scal (fun t => rsum (fun k => qc al (al + be) n k * Y t ^ k * Z t ^ (n - k)) (S n))).
    apply is_derive_rsum with (f := fun k t => qc al (al + be) n k * Y t ^ k * Z t ^ (n - k)).
    intros k _. apply isD_mult.
    + apply (is_derive_scal (fun t => Y t ^ k)). apply is_derive_pow_c. exact HY.
    + apply is_derive_pow_c. exact HZ.
  - unfold hj_dy, hj_dz. rewrite !Rmult_assoc, <- Rmult_plus_distr_l. f_equal.
    rewrite <- !rsum_scal_r, <- rsum_plus. apply rsum_ext. intros k _. ring.
Qed.

Lemma hj_poly n d al be i (Y Z : list R -> R) : is_poly n d Y -> is_poly n d Z ->
  is_poly n (i * d) (fun x => hj al be i (Y x) (Z x)).
Proof.
  intros HY HZ. unfold hj. apply is_poly_scal.
  apply is_poly_rsum with (f := fun k x => qc al (al + be) i k * Y x ^ k * Z x ^ (i - k)).
  intros k Hk. replace (i * d)%nat with (k * d + (i - k) * d)%nat by nia.
  apply is_poly_mult; [|now apply is_poly_pow].
  apply is_poly_scal. now apply is_poly_pow.
Qed.

Lemma jp_poly n al be i (Y : list R -> R) : is_poly n 1 Y -> is_poly n i (fun x => jp al be i (Y x)).
Proof.
  intros HY. unfold jp. apply is_poly_scal. unfold F.
  apply is_poly_rsum with (f := fun k x => qc al (al + be) i k * ((Y x - 1) / 2) ^ k).
  intros k Hk. apply is_poly_scal. apply is_poly_weaken with (k * 1)%nat; [lia|].
  apply is_poly_pow. apply is_poly_ext with (fun x => / 2 * (Y x + -1)); [intros; field|].
  apply is_poly_scal. apply is_poly_plus; [easy|apply is_poly_const].
Qed.

(** Parameters used by the PKDO functions *)
Lemma par0 : -1 < 0. Proof. lra. Qed.
Lemma par2 i : -1 < 2 * INR i + 1. Proof. generalize (pos_INR i); lra. Qed.
Lemma par3 i j : -1 < 2 * (INR i + INR j) + 2. Proof. generalize (pos_INR i) (pos_INR j); lra. Qed.
Lemma ex0 : exact_params 0 0.
Proof. exact (nat_exact 0 0). Qed.
Lemma ex2 i : exact_params (2 * INR i + 1) 0.
Proof.
  replace (2 * INR i + 1) with (INR (2 * i + 1)) by (rewrite plus_INR, mult_INR; simpl; ring).
  exact (nat_exact (2 * i + 1) 0).
Qed.
Lemma ex3 i j : exact_params (2 * (INR i + INR j) + 2) 0.
Proof.
  replace (2 * (INR i + INR j) + 2) with (INR (2 * (i + j) + 2))
    by (rewrite plus_INR, mult_INR, plus_INR; simpl; ring).
  exact (nat_exact (2 * (i + j) + 2) 0).
Qed.

Lemma jac0 i a : jacobi Rops 0 0 i a = jp 0 0 i a.
Proof. apply jacobi_jp; try apply par0. apply jac_gamma0_pos; apply par0. Qed.
Lemma jac2 i j a : jacobi Rops (2 * INR i + 1) 0 j a = jp (2 * INR i + 1) 0 j a.
Proof. apply jacobi_jp; try apply par0; try apply par2. apply jac_gamma0_pos; [apply par2|apply par0]. Qed.
Lemma jac3 i j k a : jacobi Rops (2 * (INR i + INR j) + 2) 0 k a = jp (2 * (INR i + INR j) + 2) 0 k a.
Proof. apply jacobi_jp; try apply par0; try apply par3. apply jac_gamma0_pos; [apply par3|apply par0]. Qed.

(** ** Triangle *)
Definition phi2 (i j : nat) (r s : R) : R :=
  sqrt 2 * hj 0 0 i (r + s) (1 - s) * jp (2 * INR i + 1) 0 j s.

(** Points where the code's collapsed coordinate is consistent: away from the strip at the vertex, or on
    the edge r = -1, where the collapsed coordinate is -1 anyway. *)
Definition good2 (r s : R) : Prop := / 10 ^ 12 <= Rabs (s - 1) \/ r = -1.

Lemma rstoab_good r s : good2 r s ->
  exists a, rstoab Rops r s = (a, s) /\ 2 * (r + s) = (a - 1) * (1 - s).
Proof.
  assert (Htol : 0 < / 10 ^ 12) by (apply Rinv_0_lt_compat, pow_lt; lra).
  intros [H| ->]; unfold rstoab; cbn [Rops vwhere_ge vabs vsub vdiv vmul vadd vc].
  - destruct (Rle_dec _ _) as [_|Hn]; [|lra].
    eexists. split; [reflexivity|].
    assert (s - 1 <> 0) by (intros E; rewrite E, Rabs_R0 in H; lra).
    field. lra.
  - destruct (Rle_dec _ _) as [H|_].
    + eexists. split; [reflexivity|].
      assert (s - 1 <> 0) by (intros E; rewrite E, Rabs_R0 in H; lra).
      field. lra.
    + eexists. split; [reflexivity|]. ring.
Qed.

Lemma pkdo_2d_phi i j r s : good2 r s -> pkdo_2d Rops i j r s = phi2 i j r s.
Proof.
  intros H. destruct (rstoab_good r s H) as (a & E & Ha).
  unfold pkdo_2d, phi2. rewrite E. cbn [Rops vsub vmul vc vpow].
  rewrite jac0, jac2, (hj_val _ _ _ _ _ a Ha). ring.
Qed.

Lemma phi2_poly i j : is_poly 2 (i + j) (fun x => phi2 i j (nth 0 x 0) (nth 1 x 0)).
Proof.
  unfold phi2. apply is_poly_mult.
  - apply is_poly_scal. replace i with (i * 1)%nat at 1 by lia.
    apply (hj_poly 2 1 0 0 i (fun x => nth 0 x 0 + nth 1 x 0) (fun x => 1 - nth 1 x 0)).
    + apply is_poly_plus; apply is_poly_coord; lia.
    + apply is_poly_ext with (fun x => 1 + -1 * nth 1 x 0); [intros; ring|].
      apply is_poly_plus; [apply is_poly_const|]. apply is_poly_scal, is_poly_coord. lia.
  - apply jp_poly with (Y := fun x => nth 1 x 0). apply is_poly_coord. lia.
Qed.

Lemma Rpower2_half n : Rpower 2 (INR n + 1 / 2) = 2 ^ n * sqrt 2.
Proof.
  rewrite Rpower_plus, Rpower_pow by lra. f_equal.
  replace (1 / 2) with (/ 2) by field. apply Rpower_sqrt. lra.
Qed.

Lemma half_pow z n : (1 / 2 * z) ^ n = z ^ n / 2 ^ n.
Proof.
  rewrite Rpow_mult_distr. replace (1 / 2) with (/ 2) by field.
  rewrite pow_inv. field. apply pow_nonzero. lra.
Qed.

Lemma grad_pkdo_2d_phi i j r s : good2 r s ->
  is_derive (fun t => phi2 i j t s) r (fst (grad_pkdo_2d Rops i j r s)) /\
  is_derive (fun t => phi2 i j r t) s (snd (grad_pkdo_2d Rops i j r s)).
Proof.
  intros H. destruct (rstoab_good r s H) as (a & E & Ha).
  unfold grad_pkdo_2d. rewrite E. cbn [Rops vsub vmul vadd vc vpow vcse].
  rewrite jac0, jac2, !grad_djp by first [apply par0|apply par2|apply ex0|apply ex2].
  cbn [fst snd]. rewrite Rpower2_half.
  pose proof (pow_nonzero 2 i ltac:(lra)) as P2.
  split; unfold phi2.
  - eapply isD_eq.
    + apply isD_mult; [apply (is_derive_scal (fun t => hj 0 0 i (t + s) (1 - s)))|apply @is_derive_const].
      apply (hj_comp 0 0 i (fun t => t + s) (fun _ => 1 - s) r 1 0).
      * auto_derive; [easy|ring].
      * apply @is_derive_const.
    + change zero with 0. destruct i as [|i]; cbn [Nat.eqb].
      * rewrite hj_dy_0. unfold djp, dF. cbn [rsum]. ring.
      * rewrite (hj_dy_val _ _ _ _ _ a Ha). replace (S i - 1)%nat with i by lia.
        rewrite half_pow. cbn [pow] in *. pose proof (pow_nonzero 2 i ltac:(lra)). field. easy.
  - eapply isD_eq.
    + apply isD_mult; [apply (is_derive_scal (fun t => hj 0 0 i (r + t) (1 - t)))|apply jp_deriv].
      apply (hj_comp 0 0 i (fun t => r + t) (fun t => 1 - t) s 1 (-1)).
      * auto_derive; [easy|ring].
      * auto_derive; [easy|ring].
    + cbv beta. rewrite (hj_val _ _ _ _ _ a Ha). destruct i as [|i]; cbn [Nat.eqb].
      * rewrite hj_dy_0, hj_dz_0. unfold djp at 2, dF. cbn [rsum pow]. simpl INR. ring.
      * rewrite (hj_dy_val _ _ _ _ _ a Ha), (hj_dz_val _ _ _ _ _ a Ha).
        replace (S i - 1)%nat with i by lia.
        rewrite !half_pow. cbn [pow] in *. pose proof (pow_nonzero 2 i ltac:(lra)).
        set (Q := jp (2 * INR (S i) + 1) 0 j s). set (D := djp 0 0 (S i) a).
        set (J := jp 0 0 (S i) a). set (n := INR (S i)). set (z := (1 - s) ^ i).
        set (DQ := djp (2 * n + 1) 0 j s). set (S2 := sqrt 2). set (t := 2 ^ i) in *.
        clearbody D J n z DQ S2 t Q. field. easy.
Qed.

(** ** Tetrahedron *)
Definition phi3 (i j k : nat) (r s t : R) : R :=
  2 * sqrt 2 * 2 ^ i * hj 0 0 i (1 + r + s + t) (- s - t)
  * hj (2 * INR i + 1) 0 j (s + t) (1 - t) * jp (2 * (INR i + INR j) + 2) 0 k t.

(** Away from both strips, or on the face r = -1 or s = -1, respectively, where the collapsed coordinate is -1 anyway. *)
Definition good3 (r s t : R) : Prop :=
  (/ 10 ^ 10 < Rabs (s + t) \/ r = -1) /\
  (/ 10 ^ 10 < Rabs (t - 1) \/ s = -1).

Lemma rsttoabc_good r s t : good3 r s t ->
  exists a b, rsttoabc Rops r s t = (a, b, t)
    /\ 2 * (1 + r + s + t) = (a - 1) * (- s - t) /\ 2 * (s + t) = (b - 1) * (1 - t).
Proof.
  assert (Htol : 0 < / 10 ^ 10) by (apply Rinv_0_lt_compat, pow_lt; lra).
  intros [H1 H2]. unfold rsttoabc. cbn [Rops vwhere_gt vabs vsub vdiv vmul vadd vc vneg].
  eexists. eexists. split; [reflexivity|]. split.
  - destruct (Rlt_dec _ (Rabs (s + t))) as [H|Hn].
    + assert (s + t <> 0) by (intros E; rewrite E, Rabs_R0 in H; lra). field. lra.
    + destruct H1 as [H1| ->]; lra.
  - destruct (Rlt_dec _ (Rabs (t - 1))) as [H|Hn].
    + assert (t - 1 <> 0) by (intros E; rewrite E, Rabs_R0 in H; lra). field. lra.
    + destruct H2 as [H2| ->]; lra.
Qed.

Lemma pkdo_3d_phi i j k r s t : good3 r s t -> pkdo_3d Rops i j k r s t = phi3 i j k r s t.
Proof.
  intros H. destruct (rsttoabc_good r s t H) as (a & b & E & Ha & Hb).
  unfold pkdo_3d, phi3. rewrite E. cbn [Rops vsub vmul vc vpow].
  rewrite jac0, jac2, jac3, (hj_val _ _ _ _ _ a Ha), (hj_val _ _ _ _ _ b Hb).
  replace (- s - t) with ((1 - b) * (1 - t) / 2) by lra.
  unfold Rdiv. rewrite !Rpow_mult_distr, pow_inv, pow_add.
  pose proof (pow_nonzero 2 i ltac:(lra)). field. easy.
Qed.

Lemma phi3_poly i j k :
  is_poly 3 (i + j + k) (fun x => phi3 i j k (nth 0 x 0) (nth 1 x 0) (nth 2 x 0)).
Proof.
  unfold phi3. apply is_poly_mult; [apply is_poly_mult|].
  - apply is_poly_scal. replace i with (i * 1)%nat at 1 by lia.
    apply (hj_poly 3 1 0 0 i (fun x => 1 + nth 0 x 0 + nth 1 x 0 + nth 2 x 0)
             (fun x => - nth 1 x 0 - nth 2 x 0)).
    + repeat apply is_poly_plus; try (apply is_poly_coord; lia). apply is_poly_const.
    + apply is_poly_ext with (fun x => -1 * nth 1 x 0 + -1 * nth 2 x 0); [intros; ring|].
      apply is_poly_plus; apply is_poly_scal, is_poly_coord; lia.
  - replace j with (j * 1)%nat at 1 by lia.
    apply (hj_poly 3 1 (2 * INR i + 1) 0 j (fun x => nth 1 x 0 + nth 2 x 0) (fun x => 1 - nth 2 x 0)).
    + apply is_poly_plus; apply is_poly_coord; lia.
    + apply is_poly_ext with (fun x => 1 + -1 * nth 2 x 0); [intros; ring|].
      apply is_poly_plus; [apply is_poly_const|]. apply is_poly_scal, is_poly_coord. lia.
  - apply jp_poly with (Y := fun x => nth 2 x 0). apply is_poly_coord. lia.
Qed.

Lemma Rpower2_3half i j : Rpower 2 (2 * INR i + INR j + 3 / 2) = 2 ^ i * 2 ^ i * 2 ^ j * (2 * sqrt 2).
Proof.
  replace (2 * INR i + INR j + 3 / 2) with (INR (i + i + j + 1) + 1 / 2).
  - rewrite Rpower2_half, !pow_add. ring.
  - rewrite !plus_INR. simpl INR. field.
Qed.

Lemma djp_0 al be a : djp al be 0 a = 0.
Proof. unfold djp, dF. cbn [rsum]. ring. Qed.

Ltac grad_cases :=
  cbn [Nat.eqb Nat.add Nat.sub]; rewrite ?Nat.add_0_r, ?Nat.sub_0_r;
  rewrite ?half_pow; unfold Rdiv; rewrite ?Rpow_mult_distr, ?pow_inv, ?pow_add, ?S_INR; cbn [pow INR]; rewrite ?pow_add; cbn [pow];
  repeat match goal with |- context [2 ^ ?n] =>
    let H := fresh in assert (H : 2 ^ n <> 0) by (apply pow_nonzero; lra);
    let u := fresh "u" in set (u := 2 ^ n) in *; clearbody u end;
  field; repeat split; easy.

Lemma grad_pkdo_3d_phi i j k r s t : good3 r s t ->
  let '(dr, ds, dt) := grad_pkdo_3d Rops i j k r s t in
  is_derive (fun u => phi3 i j k u s t) r dr /\
  is_derive (fun u => phi3 i j k r u t) s ds /\
  is_derive (fun u => phi3 i j k r s u) t dt.
Proof.
  intros H. destruct (rsttoabc_good r s t H) as (a & b & E & Ha & Hb).
  unfold grad_pkdo_3d. rewrite E. cbn [Rops vsub vmul vadd vc vpow vcse vneg].
  rewrite jac0, jac2, jac3, !grad_djp
    by first [apply par0|apply par2|apply par3|apply ex0|apply ex2|apply ex3].
  rewrite Rpower2_3half.
  set (g2 := 2 * INR i + 1). set (g3 := 2 * (INR i + INR j) + 2).
  assert (Hz : - s - t = (1 - b) * (1 - t) / 2) by lra.
  assert (D1 : forall c, is_derive (fun u => u + c) r 1) by (intros c; auto_derive; [easy|ring]).
  split; [|split]; unfold phi3; fold g2 g3.
  - eapply isD_eq.
    + apply isD_mult; [apply isD_mult|apply @is_derive_const];
        [apply (is_derive_scal (fun u => hj 0 0 i (1 + u + s + t) (- s - t)))|apply @is_derive_const].
      apply (hj_comp 0 0 i (fun u => 1 + u + s + t) (fun _ => - s - t) r 1 0).
      * auto_derive; [easy|ring].
      * apply @is_derive_const.
    + cbv beta. change zero with 0. rewrite (hj_val g2 0 j _ _ b Hb).
      destruct i as [|i], j as [|j];
        rewrite ?hj_dy_0, ?(hj_dy_val _ _ _ _ _ a Ha), ?djp_0, ?Hz; grad_cases.
  - eapply isD_eq.
    + apply isD_mult; [apply isD_mult|apply @is_derive_const];
        [apply (is_derive_scal (fun u => hj 0 0 i (1 + r + u + t) (- u - t)))|].
      * apply (hj_comp 0 0 i (fun u => 1 + r + u + t) (fun u => - u - t) s 1 (-1)); auto_derive; (easy || ring).
      * apply (hj_comp g2 0 j (fun u => u + t) (fun u => 1 - t) s 1 0);
          [auto_derive; (easy || ring)|apply @is_derive_const].
    + cbv beta. change zero with 0. rewrite (hj_val g2 0 j _ _ b Hb), (hj_val 0 0 i _ _ a Ha).
      destruct i as [|i], j as [|j];
        rewrite ?hj_dy_0, ?hj_dz_0, ?(hj_dy_val _ _ _ _ _ a Ha), ?(hj_dz_val _ _ _ _ _ a Ha),
          ?(hj_dy_val _ _ _ _ _ b Hb), ?(hj_dz_val _ _ _ _ _ b Hb), ?djp_0, ?Hz; grad_cases.
  - eapply isD_eq.
    + apply isD_mult; [apply isD_mult|apply jp_deriv];
        [apply (is_derive_scal (fun u => hj 0 0 i (1 + r + s + u) (- s - u)))|].
      * apply (hj_comp 0 0 i (fun u => 1 + r + s + u) (fun u => - s - u) t 1 (-1)); auto_derive; (easy || ring).
      * apply (hj_comp g2 0 j (fun u => s + u) (fun u => 1 - u) t 1 (-1)); auto_derive; (easy || ring).
    + cbv beta. change zero with 0. rewrite (hj_val g2 0 j _ _ b Hb), (hj_val 0 0 i _ _ a Ha).
      destruct i as [|i], j as [|j];
        rewrite ?hj_dy_0, ?hj_dz_0, ?(hj_dy_val _ _ _ _ _ a Ha), ?(hj_dz_val _ _ _ _ _ a Ha),
          ?(hj_dy_val _ _ _ _ _ b Hb), ?(hj_dz_val _ _ _ _ _ b Hb), ?djp_0, ?Hz; grad_cases.
Qed.
