(** * C20, C21, C22: bases on the triangle and the tetrahedron (modepy/modes.py:292-496)

    The code computes the collapsed coordinate by a division guarded by a
    tolerance; within the tolerance strip (|s-1| < 1e-12, resp. |s+t| <= 1e-10
    or |t-1| <= 1e-10) it substitutes -1.  The polynomials that the code
    evaluates everywhere else, and on the edge r = -1 (the faces r = -1, s = -1), are
    exactly orthonormal; what the strip changes is computed in
    [C20_code_integral]. *)
From Coquelicot Require Import Coquelicot.
From Coq Require Import List Arith Bool ZArith Reals Lia Lra.
From Verif Require Import Py ModelShapes ModelModes RSum IntFacts SpecPoly SpecGeometry SpecIntegral
  ProofGamma ProofJacobi ProofJacobi2 ProofJacobiOrtho ProofPKDO ProofPKDOOrtho.
Import ListNotations.
Local Open Scope R_scope.

(** C20 *)
Theorem C20_triangle_orthonormal :
  exists phi : nat -> nat -> list R -> R,
    (forall i j, is_poly 2 (i + j) (phi i j)) /\
    (forall i j r s, / 10 ^ 12 <= Rabs (s - 1) \/ r = -1 ->
       pkdo_2d Rops i j r s = phi i j [r; s]) /\
    (forall i j k l, is_int (Simplex 2) (fun x => phi i j x * phi k l x)
       (if ((i =? k) && (j =? l))%nat then 1 else 0)).
Proof.
  exists (fun i j x => phi2 i j (nth 0 x 0) (nth 1 x 0)). split; [|split].
  - apply phi2_poly.
  - intros i j r s H. now apply pkdo_2d_phi.
  - intros i j k l. pose proof (phi2_ortho i j k l) as H. unfold delta in H. cbn [is_int].
    destruct (i =? k)%nat, (j =? l)%nat; cbn [andb] in *;
      rewrite ?Rmult_1_l, ?Rmult_0_l, ?Rmult_0_r in H; exact H.
Qed.

(** The integral of the code's functions as they are, strip included. *)
Theorem C20_code_integral (i j k l : nat) :
  is_int (Simplex 2)
    (fun x => pkdo_2d Rops i j (nth 0 x 0) (nth 1 x 0) * pkdo_2d Rops k l (nth 0 x 0) (nth 1 x 0))
    ((if ((i =? k) && (j =? l))%nat then 1 else 0)
     + RInt (fun s =>
         (2 * (jacobi Rops 0 0 i (-1) * jacobi Rops 0 0 k (-1)) - if (i =? k)%nat then 1 else 0)
         * (jacobi Rops (2 * INR i + 1) 0 j s * jacobi Rops (2 * INR k + 1) 0 l s * (1 - s) ^ (i + k + 1)))
         (1 - / 10 ^ 12) 1).
Proof.
  pose proof (pkdo2_full i j k l) as H. cbn [is_int]. unfold tol2 in H.
  rewrite (RInt_ext _ (fun s =>
         (2 * (jacobi Rops 0 0 i (-1) * jacobi Rops 0 0 k (-1)) - if (i =? k)%nat then 1 else 0)
         * (jacobi Rops (2 * INR i + 1) 0 j s * jacobi Rops (2 * INR k + 1) 0 l s * (1 - s) ^ (i + k + 1)))) in H.
  - unfold delta in H. destruct (i =? k)%nat, (j =? l)%nat; cbn [andb] in *;
      rewrite ?Rmult_1_l, ?Rmult_0_l, ?Rmult_0_r in H; exact H.
  - intros s _. unfold strip2, exact2. rewrite !jac0, !jac2.
    unfold delta. destruct (Nat.eqb_spec i k) as [->|Hne].
    + replace (2 * k + 1)%nat with (k + k + 1)%nat by lia. req. ring.
    + req. ring.
Qed.

(** Hence exact orthonormality of the code's functions themselves fails by a
    tiny amount as soon as a mode depends on the collapsed coordinate. *)
Lemma jp1_m1 : jp 0 0 1 (-1) * jp 0 0 1 (-1) = 3 / 2.
Proof.
  pose proof (jp_ortho 0 1 1) as H. unfold delta in H. cbn [Nat.eqb] in H. change (INR 0) with 0 in H.
  assert (E : forall x, jp 0 0 1 x = kap 0 0 1 * x).
  { intros x. unfold jp. rewrite F_1. f_equal. field. lra. }
  assert (H2 : is_RInt (fun x => kap 0 0 1 * kap 0 0 1 * (x ^ 2)) (-1) 1
                 (kap 0 0 1 * kap 0 0 1 * (2 / 3))).
  { apply isR_scal. eapply isR_eq.
    - apply (FTC (fun x => x ^ 3 / 3)); intros x.
      + auto_derive; [easy|]. field.
      + apply ex_derive_cont. auto_derive. easy.
    - simpl. field. }
  assert (E2 : kap 0 0 1 * kap 0 0 1 * (2 / 3) = 1).
  { rewrite <- (isR_unique _ _ _ _ H2). apply isR_unique. eapply isR_ext; [|exact H].
    intros x. cbv beta. rewrite E. simpl. ring. }
  rewrite E. lra.
Qed.

Lemma jp300 s : jp (2 * INR 1 + 1) 0 0 s * jp (2 * INR 1 + 1) 0 0 s = 1 / 4.
Proof.
  pose proof (jp_ortho 3 0 0) as H. unfold delta in H. cbn [Nat.eqb] in H.
  assert (E : forall x, jp (INR 3) 0 0 x = kap (INR 3) 0 0) by (intros x; unfold jp; rewrite F_0; ring).
  assert (H2 : is_RInt (fun x => kap (INR 3) 0 0 * kap (INR 3) 0 0 * (1 - x) ^ 3) (-1) 1
                 (kap (INR 3) 0 0 * kap (INR 3) 0 0 * 4)).
  { apply isR_scal. eapply isR_eq.
    - apply (FTC (fun x => - ((1 - x) ^ 4 / 4))); intros x.
      + auto_derive; [easy|]. simpl. field.
      + apply ex_derive_cont. auto_derive. easy.
    - simpl. field. }
  assert (E2 : kap (INR 3) 0 0 * kap (INR 3) 0 0 * 4 = 1).
  { rewrite <- (isR_unique _ _ _ _ H2). apply isR_unique. eapply isR_ext; [|exact H].
    intros x. cbv beta. rewrite E. ring. }
  replace (2 * INR 1 + 1) with (INR 3) by (simpl; ring). rewrite E. lra.
Qed.

Theorem C20_strip_refuted :
  exists i j, is_int (Simplex 2)
    (fun x => pkdo_2d Rops i j (nth 0 x 0) (nth 1 x 0) * pkdo_2d Rops i j (nth 0 x 0) (nth 1 x 0))
    (1 + (/ 10 ^ 12) ^ 4 / 8).
Proof.
  exists 1%nat, 0%nat. pose proof (C20_code_integral 1 0 1 0) as H. cbn [Nat.eqb andb] in H.
  set (w := / 10 ^ 12) in *.
  replace (1 + w ^ 4 / 8) with
    (1 + RInt (fun s => (2 * (jacobi Rops 0 0 1 (-1) * jacobi Rops 0 0 1 (-1)) - 1) *
        (jacobi Rops (2 * INR 1 + 1) 0 0 s * jacobi Rops (2 * INR 1 + 1) 0 0 s * (1 - s) ^ (1 + 1 + 1)))
        (1 - w) 1); [exact H|].
  f_equal. apply isR_unique.
  eapply isR_ext with (f := fun s => 1 / 2 * (1 - s) ^ 3).
  { intros s. rewrite !jac0, !jac2, jp1_m1, jp300. change (1 + 1 + 1)%nat with 3%nat. field. }
  replace (w ^ 4 / 8) with (1 / 2 * (w ^ 4 / 4)) by field. apply isR_scal. eapply isR_eq.
  - apply (FTC (fun x => - ((1 - x) ^ 4 / 4))); intros x.
    + auto_derive; [easy|]. simpl. field.
    + apply ex_derive_cont. auto_derive. easy.
  - simpl. field.
Qed.

(** C21 *)
Theorem C21_tetrahedron_orthonormal :
  exists phi : nat -> nat -> nat -> list R -> R,
    (forall i j k, is_poly 3 (i + j + k) (phi i j k)) /\
    (forall i j k r s t,
       (/ 10 ^ 10 < Rabs (s + t) \/ r = -1) ->
       (/ 10 ^ 10 < Rabs (t - 1) \/ s = -1) ->
       pkdo_3d Rops i j k r s t = phi i j k [r; s; t]) /\
    (forall i j k l m n, is_int (Simplex 3) (fun x => phi i j k x * phi l m n x)
       (if ((i =? l) && (j =? m) && (k =? n))%nat then 1 else 0)).
Proof.
  exists (fun i j k x => phi3 i j k (nth 0 x 0) (nth 1 x 0) (nth 2 x 0)). split; [|split].
  - apply phi3_poly.
  - intros i j k r s t H1 H2. apply pkdo_3d_phi. split; auto.
  - intros i j k l m n. pose proof (phi3_ortho i j k l m n) as H. unfold delta in H. cbn [is_int].
    destruct (i =? l)%nat, (j =? m)%nat, (k =? n)%nat; cbn [andb] in *;
      rewrite ?Rmult_1_l, ?Rmult_0_l, ?Rmult_0_r in H; exact H.
Qed.

(** C22.  [phi] is determined by the first two clauses (a polynomial that agrees
    with the code outside the strip), so the third one gives the limit values
    on the edge through the collapsed vertex. *)
Theorem C22_grad_pkdo_2d_limit :
  exists phi : nat -> nat -> list R -> R,
    (forall i j, is_poly 2 (i + j) (phi i j)) /\
    (forall i j r s, / 10 ^ 12 <= Rabs (s - 1) \/ r = -1 ->
       pkdo_2d Rops i j r s = phi i j [r; s]) /\
    (forall i j r s, / 10 ^ 12 <= Rabs (s - 1) \/ r = -1 ->
       is_derive (fun u => phi i j [u; s]) r (fst (grad_pkdo_2d Rops i j r s)) /\
       is_derive (fun u => phi i j [r; u]) s (snd (grad_pkdo_2d Rops i j r s))).
Proof.
  exists (fun i j x => phi2 i j (nth 0 x 0) (nth 1 x 0)). split; [|split].
  - apply phi2_poly.
  - intros i j r s H. now apply pkdo_2d_phi.
  - intros i j r s H. exact (grad_pkdo_2d_phi i j r s H).
Qed.

Lemma open_strict (f : R -> R) x (c : R) : continuous f x -> c < Rabs (f x) ->
  locally x (fun y => c < Rabs (f y)).
Proof.
  intros Hc H. apply (continuous_comp f Rabs) in Hc; [|exact (continuous_Rabs (f x))].
  assert (P : 0 < Rabs (f x) - c) by lra.
  apply filterlim_locally with (eps := mkposreal _ P) in Hc.
  eapply filter_imp; [|exact Hc]. intros y Hy. change (Rabs (Rabs (f y) - Rabs (f x)) < Rabs (f x) - c) in Hy.
  apply Rabs_def2 in Hy. lra.
Qed.

Theorem C22_grad_pkdo_2d (i j : nat) (r s : R) : / 10 ^ 12 < Rabs (s - 1) ->
  is_derive (fun u => pkdo_2d Rops i j u s) r (fst (grad_pkdo_2d Rops i j r s)) /\
  is_derive (fun u => pkdo_2d Rops i j r u) s (snd (grad_pkdo_2d Rops i j r s)).
Proof.
  intros H. destruct (grad_pkdo_2d_phi i j r s) as [H1 H2]; [left; lra|]. split.
  - eapply is_derive_ext; [|exact H1]. intros u. symmetry. apply pkdo_2d_phi. left. lra.
  - eapply is_derive_ext_loc; [|exact H2].
    assert (L : locally s (fun u => / 10 ^ 12 < Rabs (u - 1))).
    { apply (open_strict (fun u => u - 1)); [|easy]. apply ex_derive_cont. auto_derive. easy. }
    eapply filter_imp; [|exact L]. intros u Hu. symmetry. apply pkdo_2d_phi. left. lra.
Qed.

Theorem C22_grad_pkdo_3d_limit :
  exists phi : nat -> nat -> nat -> list R -> R,
    (forall i j k, is_poly 3 (i + j + k) (phi i j k)) /\
    (forall i j k r s t,
       (/ 10 ^ 10 < Rabs (s + t) \/ r = -1) ->
       (/ 10 ^ 10 < Rabs (t - 1) \/ s = -1) ->
       pkdo_3d Rops i j k r s t = phi i j k [r; s; t] /\
       is_derive (fun u => phi i j k [u; s; t]) r (fst (fst (grad_pkdo_3d Rops i j k r s t))) /\
       is_derive (fun u => phi i j k [r; u; t]) s (snd (fst (grad_pkdo_3d Rops i j k r s t))) /\
       is_derive (fun u => phi i j k [r; s; u]) t (snd (grad_pkdo_3d Rops i j k r s t))).
Proof.
  exists (fun i j k x => phi3 i j k (nth 0 x 0) (nth 1 x 0) (nth 2 x 0)). split.
  - apply phi3_poly.
  - intros i j k r s t H1 H2. split; [apply pkdo_3d_phi; split; auto|].
    pose proof (grad_pkdo_3d_phi i j k r s t (conj H1 H2)) as G.
    destruct (grad_pkdo_3d Rops i j k r s t) as [[dr ds] dt]. exact G.
Qed.

Theorem C22_grad_pkdo_3d (i j k : nat) (r s t : R) :
  / 10 ^ 10 < Rabs (s + t) -> / 10 ^ 10 < Rabs (t - 1) ->
  is_derive (fun u => pkdo_3d Rops i j k u s t) r (fst (fst (grad_pkdo_3d Rops i j k r s t))) /\
  is_derive (fun u => pkdo_3d Rops i j k r u t) s (snd (fst (grad_pkdo_3d Rops i j k r s t))) /\
  is_derive (fun u => pkdo_3d Rops i j k r s u) t (snd (grad_pkdo_3d Rops i j k r s t)).
Proof.
  intros H1 H2. pose proof (grad_pkdo_3d_phi i j k r s t (conj (or_introl H1) (or_introl H2))) as G.
  destruct (grad_pkdo_3d Rops i j k r s t) as [[dr ds] dt]. cbn [fst snd].
  destruct G as (G1 & G2 & G3).
  assert (C : forall c x, continuous (fun u : R => u + c) x)
    by (intros; apply ex_derive_cont; auto_derive; easy).
  split; [|split].
  - eapply is_derive_ext; [|exact G1]. intros u. symmetry. apply pkdo_3d_phi. split; left; lra.
  - eapply is_derive_ext_loc; [|exact G2].
    pose proof (open_strict (fun u => u + t) s _ (C t s) H1) as L.
    eapply filter_imp; [|exact L]. intros u Hu. symmetry. apply pkdo_3d_phi. split; left; lra.
  - eapply is_derive_ext_loc; [|exact G3].
    assert (L1 : locally t (fun u => / 10 ^ 10 < Rabs (s + u))).
    { apply (open_strict (fun u => s + u)); [|easy]. apply ex_derive_cont. auto_derive. easy. }
    assert (L2 : locally t (fun u => / 10 ^ 10 < Rabs (u - 1))).
    { apply (open_strict (fun u => u - 1)); [|easy]. apply ex_derive_cont. auto_derive. easy. }
    pose proof (filter_and _ _ L1 L2) as L.
    eapply filter_imp; [|exact L]. intros u [Hu1 Hu2]. symmetry. apply pkdo_3d_phi. split; left; lra.
Qed.

(** Concrete cases that meet the hypotheses. *)
Lemma tenpow_small n : (1 <= n)%nat -> / 10 ^ n < 1.
Proof.
  intros H. rewrite <- Rinv_1. apply Rinv_lt_contravar; [|apply Rlt_pow_R1; [lra|lia]].
  rewrite Rmult_1_l. apply pow_lt. lra.
Qed.
Example C22_case_2d : / 10 ^ 12 < Rabs (-1 - 1).
Proof. pose proof (tenpow_small 12 ltac:(lia)). rewrite Rabs_left by lra. lra. Qed.
Example C22_case_3d : / 10 ^ 10 < Rabs (-1 + -1 / 2) /\ / 10 ^ 10 < Rabs (-1 / 2 - 1).
Proof. pose proof (tenpow_small 10 ltac:(lia)). rewrite !Rabs_left by lra. lra. Qed.

Print Assumptions C20_triangle_orthonormal.
Print Assumptions C20_code_integral.
Print Assumptions C20_strip_refuted.
Print Assumptions C21_tetrahedron_orthonormal.
Print Assumptions C22_grad_pkdo_2d.
Print Assumptions C22_grad_pkdo_2d_limit.
Print Assumptions C22_grad_pkdo_3d.
Print Assumptions C22_grad_pkdo_3d_limit.
