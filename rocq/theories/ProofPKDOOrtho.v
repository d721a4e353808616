(** * Orthonormality of the PKDO polynomials *)
From Coquelicot Require Import Coquelicot.
From Coq Require Import List Arith Bool ZArith Reals Lia Lra.
From Verif Require Import Py ModelShapes ModelModes RSum IntFacts SpecPoly SpecGeometry SpecIntegral
  ProofGamma ProofJacobi ProofJacobi2 ProofJacobiOrtho ProofPKDO.
Import ListNotations.
Local Open Scope R_scope.

(** Affine substitution onto [-1,1]: an interval of length 2w. *)
Lemma duffy (g : R -> R) (l x0 w : R) : 0 < w -> is_RInt g (-1) 1 l ->
  is_RInt (fun r => g ((r - x0) / w - 1)) x0 (x0 + 2 * w) (w * l).
Proof.
  intros Hw H.
  assert (H' : is_RInt g (/ w * x0 + (- x0 / w - 1)) (/ w * (x0 + 2 * w) + (- x0 / w - 1)) l).
  { replace (/ w * x0 + (- x0 / w - 1)) with (-1) by (field; lra).
    replace (/ w * (x0 + 2 * w) + (- x0 / w - 1)) with 1 by (field; lra). exact H. }
  apply (@is_RInt_comp_lin R_NormedModule) in H'.
  apply (isR_scal _ _ _ w) in H'. cbv beta in H'.
  eapply isR_ext; [|exact H'].
  intros r. cbv beta. change (scal (/ w) ?y) with (/ w * y).
  rewrite <- Rmult_assoc, Rinv_r, Rmult_1_l by lra. f_equal. field. lra.
Qed.

Lemma jp_ortho (a m n : nat) :
  is_RInt (fun x => jp (INR a) 0 m x * jp (INR a) 0 n x * (1 - x) ^ a) (-1) 1 (delta m n).
Proof.
  pose proof (jacobi_orthonormal_nat a 0 m n) as H.
  assert (Ha : -1 < INR a) by (generalize (pos_INR a); lra).
  eapply isR_ext; [|exact H]. intros x. cbv beta. change (INR 0) with 0.
  rewrite !jacobi_jp by first [easy|lra|apply jac_gamma0_pos; lra]. simpl (_ ^ 0). ring.
Qed.

Lemma delta_cases m n (P : Prop) : (m = n -> delta m n = 1 -> P) -> (m <> n -> delta m n = 0 -> P) -> P.
Proof.
  unfold delta. intros H1 H2. destruct (Nat.eqb_spec m n); [now apply H1|now apply H2].
Qed.

(** Triangle: the inner integral. *)
Lemma phi2_inner i j k l s : -1 < s < 1 ->
  is_RInt (fun r => phi2 i j r s * phi2 k l r s) (-1) (- s)
    (delta i k * (jp (2 * INR i + 1) 0 j s * jp (2 * INR i + 1) 0 l s * (1 - s) ^ (2 * i + 1))).
Proof.
  intros Hs.
  pose proof (duffy _ _ (-1) ((1 - s) / 2) ltac:(lra) (jp_ortho 0 i k)) as H.
  apply (isR_scal _ _ _ (2 * (1 - s) ^ (i + k) * jp (2 * INR i + 1) 0 j s * jp (2 * INR k + 1) 0 l s)) in H.
  replace (-1 + 2 * ((1 - s) / 2)) with (- s) in H by field.
  eapply isR_eq.
  - eapply isR_ext; [|exact H]. intros r. cbv beta. change (INR 0) with 0. unfold phi2.
    rewrite !(hj_val 0 0 _ (r + s) (1 - s) ((r - -1) / ((1 - s) / 2) - 1)) by (field; lra).
    rewrite pow_add. generalize (sqrt_sqrt 2 ltac:(lra)). intros E.
    rewrite <- E at 1. simpl (_ ^ 0). ring.
  - apply (delta_cases i k).
    + intros -> ->. replace (2 * k + 1)%nat with (k + k + 1)%nat by lia. rewrite !pow_add. simpl (_ ^ 1). field.
    + intros _ ->. ring.
Qed.

Lemma phi2_ortho i j k l :
  is_int_simplex 2 2 (fun x => phi2 i j (nth 0 x 0) (nth 1 x 0) * phi2 k l (nth 0 x 0) (nth 1 x 0))
    (delta i k * delta j l).
Proof.
  exists (fun s => delta i k * (jp (2 * INR i + 1) 0 j s * jp (2 * INR i + 1) 0 l s * (1 - s) ^ (2 * i + 1))).
  split.
  - intros s Hs. exists (fun r => phi2 i j r s * phi2 k l r s). split.
    + intros r Hr. reflexivity.
    + replace (-1 + (2 - (s + 1))) with (- s) by ring. apply phi2_inner. lra.
  - replace (-1 + 2) with 1 by ring. apply isR_scal.
    replace (2 * INR i + 1) with (INR (2 * i + 1)) by (rewrite plus_INR, mult_INR; simpl; ring).
    apply jp_ortho.
Qed.

(** Tetrahedron *)
Lemma phi3_inner i j k l m n s t : -1 < t < 1 -> -1 < s < - t ->
  is_RInt (fun r => phi3 i j k r s t * phi3 l m n r s t) (-1) (-1 - s - t)
    (delta i l * (4 * (2 * (- s - t)) ^ (2 * i + 1) / 2
      * (hj (2 * INR i + 1) 0 j (s + t) (1 - t) * hj (2 * INR i + 1) 0 m (s + t) (1 - t))
      * (jp (2 * (INR i + INR j) + 2) 0 k t * jp (2 * (INR i + INR m) + 2) 0 n t))).
Proof.
  intros Ht Hs.
  pose proof (duffy _ _ (-1) ((- s - t) / 2) ltac:(lra) (jp_ortho 0 i l)) as H.
  apply (isR_scal _ _ _ (8 * 2 ^ i * 2 ^ l * (- s - t) ^ (i + l)
     * (hj (2 * INR i + 1) 0 j (s + t) (1 - t) * hj (2 * INR l + 1) 0 m (s + t) (1 - t))
     * (jp (2 * (INR i + INR j) + 2) 0 k t * jp (2 * (INR l + INR m) + 2) 0 n t))) in H.
  replace (-1 + 2 * ((- s - t) / 2)) with (-1 - s - t) in H by field.
  eapply isR_eq.
  - eapply isR_ext; [|exact H]. intros r. cbv beta. change (INR 0) with 0. unfold phi3.
    rewrite !(hj_val 0 0 _ (1 + r + s + t) (- s - t) ((r - -1) / ((- s - t) / 2) - 1)) by (field; lra).
    rewrite pow_add. generalize (sqrt_sqrt 2 ltac:(lra)). intros E.
    replace 8 with (2 * 2 * (sqrt 2 * sqrt 2)) by (rewrite E; ring). simpl (_ ^ 0). ring.
  - apply (delta_cases i l).
    + intros -> ->. replace (2 * l + 1)%nat with (l + l + 1)%nat by lia.
      rewrite !Rpow_mult_distr, !pow_add. simpl (_ ^ 1). field.
    + intros _ ->. ring.
Qed.

Lemma phi3_middle i j k m n t : -1 < t < 1 ->
  is_RInt (fun s => 4 * (2 * (- s - t)) ^ (2 * i + 1) / 2
      * (hj (2 * INR i + 1) 0 j (s + t) (1 - t) * hj (2 * INR i + 1) 0 m (s + t) (1 - t))
      * (jp (2 * (INR i + INR j) + 2) 0 k t * jp (2 * (INR i + INR m) + 2) 0 n t)) (-1) (- t)
    (delta j m * (jp (2 * (INR i + INR j) + 2) 0 k t * jp (2 * (INR i + INR j) + 2) 0 n t
                  * (1 - t) ^ (2 * (i + j) + 2))).
Proof.
  intros Ht.
  pose proof (duffy _ _ (-1) ((1 - t) / 2) ltac:(lra) (jp_ortho (2 * i + 1) j m)) as H.
  apply (isR_scal _ _ _ (2 * (1 - t) ^ (2 * i + 1 + j + m)
    * (jp (2 * (INR i + INR j) + 2) 0 k t * jp (2 * (INR i + INR m) + 2) 0 n t))) in H.
  replace (-1 + 2 * ((1 - t) / 2)) with (- t) in H by field.
  eapply isR_eq.
  - eapply isR_ext; [|exact H]. intros s. cbv beta.
    replace (INR (2 * i + 1)) with (2 * INR i + 1) by (rewrite plus_INR, mult_INR; simpl; ring).
    set (b := (s - -1) / ((1 - t) / 2) - 1).
    assert (Hb : 2 * (s + t) = (b - 1) * (1 - t)) by (unfold b; field; lra).
    rewrite !(hj_val (2 * INR i + 1) 0 _ (s + t) (1 - t) b Hb).
    replace (2 * (- s - t)) with ((1 - b) * (1 - t)) by lra.
    rewrite Rpow_mult_distr, !pow_add. field.
  - apply (delta_cases j m).
    + intros -> ->. replace (2 * (i + m) + 2)%nat with (2 * i + 1 + m + m + 1)%nat by lia.
      rewrite (pow_add _ _ 1). simpl (_ ^ 1). field.
    + intros _ ->. ring.
Qed.

Lemma phi3_ortho i j k l m n :
  is_int_simplex 3 2 (fun x => phi3 i j k (nth 0 x 0) (nth 1 x 0) (nth 2 x 0)
                               * phi3 l m n (nth 0 x 0) (nth 1 x 0) (nth 2 x 0))
    (delta i l * (delta j m * delta k n)).
Proof.
  exists (fun t => delta i l * (delta j m * (jp (2 * (INR i + INR j) + 2) 0 k t
     * jp (2 * (INR i + INR j) + 2) 0 n t * (1 - t) ^ (2 * (i + j) + 2)))). split.
  - intros t Ht.
    exists (fun s => delta i l * (4 * (2 * (- s - t)) ^ (2 * i + 1) / 2
      * (hj (2 * INR i + 1) 0 j (s + t) (1 - t) * hj (2 * INR i + 1) 0 m (s + t) (1 - t))
      * (jp (2 * (INR i + INR j) + 2) 0 k t * jp (2 * (INR i + INR m) + 2) 0 n t))). split.
    + intros s Hs. exists (fun r => phi3 i j k r s t * phi3 l m n r s t). split.
      * intros r Hr. reflexivity.
      * replace (-1 + (2 - (t + 1) - (s + 1))) with (-1 - s - t) by ring. apply phi3_inner; lra.
    + replace (-1 + (2 - (t + 1))) with (- t) by ring. apply isR_scal. apply phi3_middle. lra.
  - replace (-1 + 2) with 1 by ring. apply isR_scal, isR_scal.
    replace (2 * (INR i + INR j) + 2) with (INR (2 * (i + j) + 2))
      by (rewrite plus_INR, mult_INR, plus_INR; simpl; ring).
    apply jp_ortho.
Qed.

Lemma jp0_ortho i k :
  is_int_simplex 1 2 (fun x => jp 0 0 i (nth 0 x 0) * jp 0 0 k (nth 0 x 0)) (delta i k).
Proof.
  exists (fun r => jp 0 0 i r * jp 0 0 k r). split; [reflexivity|].
  replace (-1 + 2) with 1 by ring. pose proof (jp_ortho 0 i k) as H.
  eapply isR_ext; [|exact H]. intros x. cbv beta. change (INR 0) with 0. simpl (_ ^ 0). ring.
Qed.

(** ** The integral of the code's own triangle functions, strip included *)
Definition tol2 : R := / 10 ^ 12.
Lemma tol2_pos : 0 < tol2 < 1.
Proof.
  unfold tol2. split; [apply Rinv_0_lt_compat, pow_lt; lra|].
  rewrite <- Rinv_1. apply Rinv_lt_contravar; [|apply Rlt_pow_R1; [lra|lia]].
  rewrite Rmult_1_l. apply pow_lt. lra.
Qed.

Definition exact2 i k j l s : R :=
  delta i k * (jp (2 * INR i + 1) 0 j s * jp (2 * INR i + 1) 0 l s * (1 - s) ^ (2 * i + 1)).
Definition strip2 i k j l s : R :=
  2 * (jp 0 0 i (-1) * jp 0 0 k (-1)) *
  (jp (2 * INR i + 1) 0 j s * jp (2 * INR k + 1) 0 l s * (1 - s) ^ (i + k + 1)).

Lemma pkdo_2d_strip i j r s : 1 - tol2 < s < 1 ->
  pkdo_2d Rops i j r s = sqrt 2 * jp 0 0 i (-1) * jp (2 * INR i + 1) 0 j s * (1 - s) ^ i.
Proof.
  intros H. unfold pkdo_2d, rstoab. cbn [Rops vwhere_ge vabs vsub vdiv vmul vadd vc vpow].
  fold tol2. destruct (Rle_dec _ _) as [Hn|_].
  - exfalso. rewrite Rabs_left in Hn by lra. lra.
  - now rewrite jac0, jac2.
Qed.

Lemma cont_pow_c (n : nat) s : continuous (fun s : R => (1 - s) ^ n) s.
Proof. apply ex_derive_cont. auto_derive. easy. Qed.

Lemma exact2_cont i k j l s : continuous (exact2 i k j l) s.
Proof.
  unfold exact2. apply @continuous_scal_r. apply @continuous_mult; [apply @continuous_mult|];
    [apply jp_cont|apply jp_cont|apply cont_pow_c].
Qed.
Lemma strip2_cont i k j l s : continuous (strip2 i k j l) s.
Proof.
  unfold strip2. apply @continuous_scal_r. apply @continuous_mult; [apply @continuous_mult|];
    [apply jp_cont|apply jp_cont|apply cont_pow_c].
Qed.

Lemma pkdo2_full i j k l :
  is_int_simplex 2 2 (fun x => pkdo_2d Rops i j (nth 0 x 0) (nth 1 x 0)
                               * pkdo_2d Rops k l (nth 0 x 0) (nth 1 x 0))
    (delta i k * delta j l
     + RInt (fun s => strip2 i k j l s - exact2 i k j l s) (1 - tol2) 1).
Proof.
  pose proof tol2_pos as Ht.
  exists (fun s => if Rle_dec s (1 - tol2) then exact2 i k j l s else strip2 i k j l s). split.
  - intros s Hs. exists (fun r => pkdo_2d Rops i j r s * pkdo_2d Rops k l r s). split.
    + intros r Hr. reflexivity.
    + replace (-1 + (2 - (s + 1))) with (- s) by ring.
      destruct (Rle_dec s (1 - tol2)) as [Hl|Hl].
      * eapply is_RInt_ext; [|apply phi2_inner; lra]. intros r Hr.
        cbv beta. rewrite !pkdo_2d_phi; [easy| |]; left; rewrite Rabs_left by lra; fold tol2; lra.
      * eapply is_RInt_ext with (f := fun r => _); [intros r Hr; now rewrite !pkdo_2d_strip by lra|].
        eapply isR_eq; [apply isR_const|]. unfold strip2.
        replace (i + k + 1)%nat with (i + k + 1)%nat by lia. rewrite !pow_add. simpl (_ ^ 1).
        set (A := jp (2 * INR i + 1) 0 j s). set (B := jp (2 * INR k + 1) 0 l s).
        generalize (sqrt_sqrt 2 ltac:(lra)). set (q := sqrt 2). intros E. rewrite <- E. ring.
  - assert (X1 : is_RInt (exact2 i k j l) (-1) 1 (delta i k * delta j l)).
    { unfold exact2. apply isR_scal.
      replace (2 * INR i + 1) with (INR (2 * i + 1)) by (rewrite plus_INR, mult_INR; simpl; ring).
      apply jp_ortho. }
    pose proof (isR_continuous _ (-1) (1 - tol2) (exact2_cont i k j l)) as XA.
    pose proof (isR_continuous _ (1 - tol2) 1 (exact2_cont i k j l)) as XB.
    pose proof (isR_continuous _ (1 - tol2) 1 (strip2_cont i k j l)) as XS.
    pose proof (isR_unique _ _ _ _ (is_RInt_Chasles _ _ _ _ _ _ XA XB)) as E1.
    rewrite (isR_unique _ _ _ _ X1) in E1. change (plus ?a ?b) with (a + b) in E1.
    replace (-1 + 2) with 1 by ring.
    rewrite (isR_unique _ _ _ _ (isR_minus _ _ _ _ _ _ XS XB)).
    eapply isR_eq.
    + apply is_RInt_Chasles with (1 - tol2).
      * eapply is_RInt_ext; [|exact XA]. intros s Hs. rewrite Rmin_left, Rmax_right in Hs by lra.
        destruct (Rle_dec s _); [easy|lra].
      * eapply is_RInt_ext; [|exact XS]. intros s Hs. rewrite Rmin_left, Rmax_right in Hs by lra.
        destruct (Rle_dec s _); [lra|easy].
    + change (plus ?a ?b) with (a + b). rewrite E1. ring.
Qed.
