(** * Affine substitution in polynomials; Dirichlet integrals over the simplex *)
From Coquelicot Require Import Coquelicot.
From Coq Require Import List Arith Bool Reals Lra Lia Factorial.
From Verif Require Import ModelShapes RSum IntFacts SpecGeometry SpecIndex SpecPoly SpecIntegral ProofMatrices2.
Import ListNotations.
Local Open Scope R_scope.

(** Substituting affine functions keeps the degree. *)
Lemma is_poly_monoval n e gs : length gs = length e -> Forall (fun g => is_poly n 1 g) gs ->
  is_poly n (total e) (fun x => monoval e (map (fun g => g x) gs)).
Proof.
  revert gs. induction e as [|k e IH]; intros [|g gs] HL HF; try discriminate.
  - cbn [monoval]. apply is_poly_const.
  - cbn [map monoval]. inversion HF; subst. unfold total. cbn [fold_right]. fold (total e).
    apply is_poly_mult; [|apply IH; [cbn in HL; lia|easy]].
    replace k with (k * 1)%nat at 1 by lia. now apply is_poly_pow.
Qed.
Lemma is_poly_comp n k m f gs : length gs = k -> Forall (fun g => is_poly n 1 g) gs -> is_poly k m f ->
  is_poly n m (fun x => f (map (fun g => g x) gs)).
Proof.
  intros HL HF (ts & H1 & H2). apply is_poly_ext with (fun x => polyval ts (map (fun g => g x) gs)).
  { intros x _. symmetry. apply H2. now rewrite map_length. }
  clear H2. induction H1 as [|t ts [Ht1 Ht2] _ IH].
  - unfold polyval. cbn [fold_right]. apply is_poly_const.
  - unfold polyval in *. cbn [fold_right]. apply is_poly_plus; [|exact IH]. apply is_poly_scal.
    eapply is_poly_weaken; [exact Ht2|]. apply (is_poly_monoval n (snd t) gs); [congruence|easy].
Qed.
Lemma coords_eq (x : list R) (h : R -> R) n : length x = n ->
  map (fun g => g x) (map (fun i (x : list R) => h (nth i x 0)) (seq 0 n)) = map h x.
Proof.
  intros <-. rewrite map_map. induction x as [|a x IH]; [reflexivity|].
  cbn [length seq map nth]. f_equal. rewrite <- IH, <- seq_shift, map_map. reflexivity.
Qed.
Lemma is_poly_affine_coords n m f (h : R -> R) a b : (forall c, h c = a * c + b) -> is_poly n m f ->
  is_poly n m (fun x => f (map h x)).
Proof.
  intros Hh Hf. apply is_poly_ext with (fun x => f (map (fun g => g x) (map (fun i (x : list R) => h (nth i x 0)) (seq 0 n)))).
  { intros x Hx. now rewrite coords_eq. }
  apply (is_poly_comp n n m f); [now rewrite map_length, seq_length| |easy].
  apply Forall_forall. intros g Hg. apply in_map_iff in Hg. destruct Hg as (i & <- & Hi). apply in_seq in Hi.
  apply is_poly_ext with (fun x => a * nth i x 0 + b); [intros; symmetry; apply Hh|].
  apply is_poly_plus; [|apply is_poly_const]. apply is_poly_scal. apply is_poly_coord. lia.
Qed.
Lemma map_id_in {B} (f : B -> B) l : (forall x, f x = x) -> map f l = l.
Proof. intros H. rewrite (map_ext f (fun x => x) H). apply map_id. Qed.
Lemma is_poly_shifted n m f : is_poly n m f -> exists ts,
  Forall (fun t : R * list nat => length (snd t) = n /\ (total (snd t) <= m)%nat) ts
  /\ forall x, length x = n -> f x = polyval ts (map (fun c => c + 1) x).
Proof.
  intros Hf. destruct (is_poly_affine_coords n m f (fun c => c - 1) 1 (-1)) as (ts & H1 & H2); [intros; ring|easy|].
  exists ts. split; [exact H1|]. intros x Hx. rewrite <- H2 by (now rewrite map_length). rewrite map_map.
  now rewrite map_id_in by (intros; ring).
Qed.

(** Beta integrals with integer exponents. *)
Lemma beta_nat e : forall m t, is_RInt (fun x => (x + 1) ^ e * (t - (x + 1)) ^ m) (-1) (-1 + t)
  (t ^ (e + m + 1) * (INR (fact e) * INR (fact m) / INR (fact (e + m + 1)))).
Proof.
  induction e as [|e IH]; intros m t.
  - eapply isR_eq.
    + apply (FTC (fun x => - / INR (S m) * (t - (x + 1)) ^ S m)).
      * intros x. auto_derive; [easy|]. change (match m with O => 1 | S _ => INR m + 1 end) with (INR (S m)).
        pose proof (not_0_INR (S m) ltac:(lia)) as HN. req. cbn [pow Nat.pred]. change (t + - (x + 1)) with (t - (x + 1)). field. exact HN.
      * intros x. apply ex_derive_cont. auto_derive. easy.
    + req. replace (t - (-1 + t + 1)) with 0 by ring. replace (t - (-1 + 1)) with t by ring.
      rewrite pow_i by lia. replace (0 + m + 1)%nat with (S m) by lia. rewrite fact_simpl, mult_INR. change (fact 0) with 1%nat.
      pose proof (INR_fact_neq_0 m). assert (INR (S m) <> 0) by (apply not_0_INR; lia). change (INR 1) with 1. field. split; easy.
  - (* by parts *)
    assert (P : is_RInt (fun x => INR (S e) * ((x + 1) ^ e * (t - (x + 1)) ^ S m) - INR (S m) * ((x + 1) ^ S e * (t - (x + 1)) ^ m)) (-1) (-1 + t) 0).
    { eapply isR_eq.
      - apply (FTC (fun x => (x + 1) ^ S e * (t - (x + 1)) ^ S m)).
        + intros x. auto_derive; [easy|]. change (match m with O => 1 | S _ => INR m + 1 end) with (INR (S m)).
          change (match e with O => 1 | S _ => INR e + 1 end) with (INR (S e)). req. cbn [pow Nat.pred]. change (t + - (x + 1)) with (t - (x + 1)). ring.
        + intros x. apply ex_derive_cont. auto_derive. easy.
      - req. replace (t - (-1 + t + 1)) with 0 by ring. replace (-1 + 1) with 0 by ring. rewrite !pow_i by lia. ring. }
    pose proof (isR_scal _ _ _ (INR (S e)) _ (IH (S m) t)) as Q.
    pose proof (isR_minus _ _ _ _ _ _ Q P) as W. apply (isR_scal _ _ _ (/ INR (S m))) in W.
    assert (HS : INR (S m) <> 0) by (apply not_0_INR; lia).
    eapply isR_eq; [eapply isR_ext; [|exact W]|].
    + intros x. cbv beta. field. easy.
    + req. replace (e + S m + 1)%nat with (S e + m + 1)%nat by lia. rewrite (fact_simpl m), (fact_simpl e), !mult_INR.
      pose proof (INR_fact_neq_0 (S e + m + 1)). field. split; easy.
Qed.

Definition prodfact (e : list nat) : R := INR (fold_right Nat.mul 1%nat (map fact e)).
Lemma prodfact_cons k e : prodfact (k :: e) = INR (fact k) * prodfact e.
Proof. unfold prodfact. cbn [map fold_right]. apply mult_INR. Qed.
Lemma prodfact_app e e' : prodfact (e ++ e') = prodfact e * prodfact e'.
Proof. induction e as [|k e IH]; cbn [app]; [unfold prodfact at 2; cbn; ring|]. rewrite !prodfact_cons, IH. ring. Qed.
Lemma total_app e e' : total (e ++ e') = (total e + total e')%nat.
Proof. unfold total. induction e as [|k e IH]; cbn [app fold_right]; [reflexivity|]. rewrite IH. lia. Qed.
Lemma monoval_app e e' x x' : length e = length x -> monoval (e ++ e') (x ++ x') = monoval e x * monoval e' x'.
Proof.
  revert x. induction e as [|k e IH]; intros [|c x] H; try discriminate; cbn [app monoval]; [ring|].
  cbn in H. rewrite IH by lia. ring.
Qed.
Lemma dirichlet d : forall e t, length e = d -> 0 <= t ->
  is_int_simplex d t (fun x => monoval e (map (fun c => c + 1) x)) (t ^ (total e + d) * (prodfact e / INR (fact (total e + d)))).
Proof.
  induction d as [|d IH]; intros e t He Ht.
  - destruct e; [|discriminate]. cbn [is_int_simplex monoval map]. unfold total, prodfact. cbn. field.
  - destruct (exists_last (l := e)) as (e' & k & ->); [intros ->; discriminate|].
    rewrite app_length in He. cbn [length] in He. assert (He' : length e' = d) by lia.
    cbn [is_int_simplex]. set (C := prodfact e' / INR (fact (total e' + d))).
    exists (fun x => C * ((x + 1) ^ k * (t - (x + 1)) ^ (total e' + d))). split.
    + intros x Hx. pose proof (is_int_simplex_scal _ _ ((x + 1) ^ k) _ _ (IH e' (t - (x + 1)) He' ltac:(lra))) as H.
      apply (is_int_simplex_ext d (t - (x + 1)) (fun p => (x + 1) ^ k * monoval e' (map (fun c => c + 1) p))).
      * lra.
      * intros p [Hp _]. rewrite map_app. cbn [map]. rewrite monoval_app by (rewrite map_length; congruence). cbn [monoval]. ring.
      * replace (C * ((x + 1) ^ k * (t - (x + 1)) ^ (total e' + d)))
          with ((x + 1) ^ k * ((t - (x + 1)) ^ (total e' + d) * (prodfact e' / INR (fact (total e' + d))))) by (unfold C; ring).
        exact H.
    + eapply isR_eq; [apply isR_scal, beta_nat|]. unfold C. rewrite total_app, prodfact_app.
      replace (total [k]) with k by (unfold total; cbn [fold_right]; lia).
      replace (prodfact [k]) with (INR (fact k)) by (unfold prodfact; cbn [map fold_right]; f_equal; lia).
      replace (k + (total e' + d) + 1)%nat with (total e' + k + S d)%nat by lia.
      pose proof (INR_fact_neq_0 (total e' + d)). pose proof (INR_fact_neq_0 (total e' + k + S d)). req. field. split; easy.
Qed.
(** On the reference simplex. *)
Lemma dirichlet_ref d e : length e = d ->
  is_int (Simplex d) (fun x => monoval e (map (fun c => (c + 1) / 2) x)) (2 ^ d * (prodfact e / INR (fact (total e + d)))).
Proof.
  intros He. cbn [is_int].
  pose proof (is_int_simplex_scal _ _ (/ 2 ^ total e) _ _ (dirichlet d e 2 He ltac:(lra))) as H.
  assert (HS : forall x, length x = d -> monoval e (map (fun c => (c + 1) / 2) x) = / 2 ^ total e * monoval e (map (fun c => c + 1) x)).
  { clear H. subst d. induction e as [|k e IH]; intros [|c x] Hx; try discriminate.
    - unfold total; cbn. field.
    - cbn [map monoval]. cbn in Hx. rewrite IH by lia. unfold total. cbn [fold_right]. fold (total e).
      unfold Rdiv. rewrite Rpow_mult_distr, pow_add, Rinv_mult, pow_inv. ring. }
  eapply is_int_simplex_ext; [lra| |].
  - intros x [Hx _]. symmetry. now apply HS.
  - replace (2 ^ d * (prodfact e / INR (fact (total e + d)))) with (/ 2 ^ total e * (2 ^ (total e + d) * (prodfact e / INR (fact (total e + d)))));
      [exact H|]. rewrite pow_add. pose proof (INR_fact_neq_0 (total e + d)). assert (2 ^ total e <> 0) by (apply pow_nonzero; lra). field. split; easy.
Qed.
(** Linear functionals and integrals agree on polynomials when they agree on
    monomials in (x+1)/2. *)
Lemma is_poly_half n m f : is_poly n m f -> exists ts,
  Forall (fun t : R * list nat => length (snd t) = n /\ (total (snd t) <= m)%nat) ts
  /\ forall x, length x = n -> f x = polyval ts (map (fun c => (c + 1) / 2) x).
Proof.
  intros Hf. destruct (is_poly_affine_coords n m f (fun c => 2 * c - 1) 2 (-1)) as (ts & H1 & H2); [intros; ring|easy|].
  exists ts. split; [exact H1|]. intros x Hx. rewrite <- H2 by (now rewrite map_length). rewrite map_map.
  now rewrite map_id_in by (intros; field).
Qed.
