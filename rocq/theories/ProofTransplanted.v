(** * Proofs for transplanted rules *)
From Coquelicot Require Import Coquelicot.
From Coq Require Import List Arith Bool ZArith QArith Reals Lra Lia.
From Verif Require Import Py RSum ModelNd ModelShapes ModelNodes ModelModes ModelQuad ModelGauss ModelTransplanted.
From Verif Require Import ProofMonomial SpecPoly ProofPoly1 ProofQuad ProofGauss2.
Import ListNotations.
Local Open Scope R_scope.

(** ** Composition of polynomials *)
Lemma poly1_compow b g : poly1 b g -> forall k, poly1 (k * b) (fun x => g x ^ k).
Proof.
  intros H. induction k as [|k IH]; cbn [pow Nat.mul]; [apply poly1_const|]. now apply poly1_mult.
Qed.
Lemma poly1_comp a b f g : poly1 a f -> poly1 b g -> poly1 (a * b) (fun x => f (g x)).
Proof.
  intros [c Hc] Hg. eapply poly1_ext; [intros x; symmetry; apply Hc|]. apply (poly1_rsum (a * b) (fun k x => c k * g x ^ k) (S a)). intros k Hk. apply poly1_scal.
  apply (poly1_weaken (k * b)); [apply Nat.mul_le_mono_r; lia|]. now apply poly1_compow.
Qed.

(** ** The Taylor coefficients of arcsin *)
Definition asin_coef (k : nat) : R := INR (fact (2 * k)) / (4 ^ k * INR (fact k) ^ 2 * INR (2 * k + 1)).
Lemma asin_coef_pos k : 0 < asin_coef k.
Proof.
  unfold asin_coef. apply Rdiv_lt_0_compat; [apply INR_fact_lt_0|]. apply Rmult_lt_0_compat; [apply Rmult_lt_0_compat; apply pow_lt; [lra|apply INR_fact_lt_0]|apply lt_0_INR; lia].
Qed.
Lemma asin_coef_S k : asin_coef (S k) = asin_coef k * (2 * (INR (S k) - 1) + 1) ^ 2 / (2 * INR (S k) * (2 * (INR (S k) - 1) + 3)).
Proof.
  unfold asin_coef. replace (2 * S k)%nat with (S (S (2 * k))) by lia. rewrite !fact_simpl, !mult_INR. replace (S (S (2 * k)) + 1)%nat with (2 * k + 3)%nat by lia.
  rewrite !S_INR, !plus_INR, !mult_INR. change (INR 2) with 2. change (INR 1) with 1. replace (INR 3) with 3 by (cbn; ring).
  assert (INR (fact k) <> 0) by apply INR_fact_neq_0. assert (4 ^ k <> 0) by (apply pow_nonzero; lra). pose proof (pos_INR k).
  cbn [pow]. field. repeat split; try assumption; nra.
Qed.
Lemma coeffs_spec n : fold_left arcsin_step (seq 1 n) [1] = map asin_coef (seq 0 (S n)).
Proof.
  induction n as [|n IH].
  - cbn. unfold asin_coef. cbn. f_equal. field.
  - rewrite seq_S, fold_left_app, IH. cbn [fold_left Nat.add]. unfold arcsin_step. rewrite (seq_S (S n) 0), map_app. f_equal. cbn [Nat.add map]. f_equal.
    rewrite (asin_coef_S n). replace (S n - 1)%nat with n by lia. rewrite nth_map_seq by lia. reflexivity.
Qed.
Lemma py_sum_map (f : nat -> R) n : py_sum (map f (seq 0 n)) = rsum f n.
Proof.
  unfold py_sum. induction n as [|n IH]; [reflexivity|]. rewrite seq_S, map_app, fold_left_app, IH. reflexivity.
Qed.
Lemma sums_spec (c : nat -> R) n s : sausage_sums (map c (seq 0 n)) s
  = (rsum (fun k => c k * s ^ (2 * k + 1)) n, rsum (fun k => c k * (INR (2 * k + 1) * s ^ (2 * k))) n).
Proof.
  unfold sausage_sums. rewrite map_length, seq_length. induction n as [|n IH]; [reflexivity|]. rewrite seq_S, map_app.
  assert (E : forall (l : list nat) (l' : list nat) a b, length l = length l' -> combine (l ++ [a]) (map c l' ++ [b]) = combine l (map c l') ++ [(a, b)]).
  { induction l as [|x l I]; intros [|y l'] a b H; try discriminate; [reflexivity|]. cbn [app map combine]. f_equal. apply I. cbn [length] in H. lia. }
  cbn [map]. rewrite E, fold_left_app, IH by reflexivity. cbn [fold_left rsum Nat.add]. replace (2 * n + 1 - 1)%nat with (2 * n)%nat by lia. f_equal; ring.
Qed.

(** The sausage map of degree 2 M + 1. *)
Definition sg (M : nat) (x : R) : R := rsum (fun k => asin_coef k * x ^ (2 * k + 1)) (S M) / rsum asin_coef (S M).
Definition sgp (M : nat) (x : R) : R := rsum (fun k => asin_coef k * (INR (2 * k + 1) * x ^ (2 * k))) (S M) / rsum asin_coef (S M).
Lemma den_pos M : 0 < rsum asin_coef (S M).
Proof.
  induction M as [|M IH]; [cbn [rsum]; pose proof (asin_coef_pos 0); lra|]. rewrite rsum_S. pose proof (asin_coef_pos (S M)). lra.
Qed.
Lemma sausage_run M s : tm_fun (map_sausage (2 * Z.of_nat M + 1)) s = Ok (map (sg M) s, map (sgp M) s).
Proof.
  unfold map_sausage, arcsin_taylor_coefficients. cbn [tm_fun]. destruct (Z.ltb_spec (2 * Z.of_nat M + 1) 1); [lia|].
  destruct (Z.eqb_spec ((2 * Z.of_nat M + 1) mod 2) 0) as [E|_]; [rewrite Z.add_comm, Z.mul_comm, Z.mod_add in E by lia; discriminate|].
  cbn [orb bind]. cbv zeta. replace ((2 * Z.of_nat M + 1 + 1) / 2)%Z with (Z.of_nat (S M)).
  2:{ replace (2 * Z.of_nat M + 1 + 1)%Z with (Z.of_nat (S M) * 2)%Z by lia. now rewrite Z.div_mul by lia. }
  rewrite Nat2Z.id. replace (S M - 1)%nat with M by lia. rewrite coeffs_spec, py_sum_map. f_equal. f_equal; apply map_ext; intros x; rewrite sums_spec; reflexivity.
Qed.
Lemma is_derive_rsum (f g : nat -> R -> R) x n : (forall k, (k < n)%nat -> is_derive (f k) x (g k x)) ->
  is_derive (fun y => rsum (fun k => f k y) n) x (rsum (fun k => g k x) n).
Proof.
  induction n as [|n IH]; intros H; cbn [rsum]; [apply @is_derive_const|]. apply @is_derive_plus; [apply IH; intros; apply H; lia|apply H; lia].
Qed.
Lemma sg_derive M x : is_derive (sg M) x (sgp M x).
Proof.
  unfold sg, sgp. pose proof (den_pos M) as P. set (D := rsum asin_coef (S M)) in *.
  apply (is_derive_ext (fun y => / D * rsum (fun k => asin_coef k * y ^ (2 * k + 1)) (S M))); [intros; unfold Rdiv; req; ring|].
  replace (rsum (fun k => asin_coef k * (INR (2 * k + 1) * x ^ (2 * k))) (S M) / D) with (/ D * rsum (fun k => asin_coef k * (INR (2 * k + 1) * x ^ (2 * k))) (S M)) by (unfold Rdiv; ring).
  apply @is_derive_scal. apply (is_derive_rsum (fun k y => asin_coef k * y ^ (2 * k + 1)) (fun k y => asin_coef k * (INR (2 * k + 1) * y ^ (2 * k)))).
  intros k _. apply @is_derive_scal. apply is_derive_Reals. replace (2 * k)%nat with (pred (2 * k + 1)) at 2 by lia. apply derivable_pt_lim_pow.
Qed.
Lemma sgp_pos M x : 0 < sgp M x.
Proof.
  unfold sgp. apply Rdiv_lt_0_compat; [|apply den_pos]. induction M as [|M IH].
  - cbn [rsum]. pose proof (asin_coef_pos 0). cbn. lra.
  - rewrite rsum_S. assert (0 <= asin_coef (S M) * (INR (2 * S M + 1) * x ^ (2 * S M))); [|lra].
    apply Rmult_le_pos; [left; apply asin_coef_pos|]. apply Rmult_le_pos; [apply pos_INR|]. rewrite pow_mult. apply pow_le. cbn [pow]. nra.
Qed.
Lemma sg_poly M : poly1 (2 * M + 1) (sg M).
Proof.
  apply (poly1_ext _ (fun x => / rsum asin_coef (S M) * rsum (fun k => asin_coef k * x ^ (2 * k + 1)) (S M))); [intros x; unfold sg, Rdiv; ring|].
  apply poly1_scal. apply (poly1_rsum _ (fun k x => asin_coef k * x ^ (2 * k + 1))). intros k Hk. apply poly1_scal. apply (poly1_weaken (2 * k + 1)); [lia|apply poly1_pow].
Qed.
Lemma sgp_poly M : poly1 (2 * M) (sgp M).
Proof.
  apply (poly1_ext _ (fun x => / rsum asin_coef (S M) * rsum (fun k => asin_coef k * (INR (2 * k + 1) * x ^ (2 * k))) (S M))); [intros x; unfold sgp, Rdiv; ring|].
  apply poly1_scal. apply (poly1_rsum _ (fun k x => asin_coef k * (INR (2 * k + 1) * x ^ (2 * k)))). intros k Hk. do 2 apply poly1_scal. apply (poly1_weaken (2 * k)); [lia|apply poly1_pow].
Qed.
Lemma sg_odd M x : sg M (- x) = - sg M x.
Proof.
  unfold sg. transitivity ((-1 * rsum (fun k => asin_coef k * x ^ (2 * k + 1)) (S M)) / rsum asin_coef (S M)); [|unfold Rdiv; ring]. f_equal. rewrite <- rsum_scal.
  apply rsum_ext. intros k _. replace (- x) with (-1 * x) by ring. rewrite Rpow_mult_distr. rewrite (pow_add (-1)), pow_mult. replace ((-1) ^ 2) with 1 by ring. rewrite pow1. ring.
Qed.
Lemma sg_1 M : sg M 1 = 1.
Proof.
  unfold sg. rewrite (rsum_ext _ asin_coef) by (intros; rewrite pow1; ring). field. pose proof (den_pos M). lra.
Qed.
(** A function with positive derivative on an interval increases there. *)
Lemma incr_of_derive (f f' : R -> R) a b : (forall x, a <= x <= b -> is_derive f x (f' x)) -> (forall x, a <= x <= b -> 0 < f' x) ->
  forall x y, a <= x -> x < y -> y <= b -> f x < f y.
Proof.
  intros HD HP x y Hx Hxy Hy. destruct (MVT_gen f x y f') as (c & Hc & E).
  - intros z Hz. rewrite Rmin_left, Rmax_right in Hz by lra. apply HD. lra.
  - intros z Hz. rewrite Rmin_left, Rmax_right in Hz by lra. apply continuity_pt_filterlim. apply (@ex_derive_continuous _ R_NormedModule). exists (f' z). apply HD. lra.
  - rewrite Rmin_left, Rmax_right in Hc by lra. specialize (HP c ltac:(lra)). nra.
Qed.

(** ** arcsin *)
Lemma asin_derive x : -1 < x < 1 -> is_derive asin x (1 / sqrt (1 - x ^ 2)).
Proof.
  intros H. apply is_derive_Reals. replace (x ^ 2) with (Rsqr x) by (unfold Rsqr; ring). rewrite <- (derive_pt_asin x H). apply derive_pt_eq_1 with (derivable_pt_asin x H). reflexivity.
Qed.
Lemma asin_pos a : 0 < a <= 1 -> 0 < asin a.
Proof.
  intros H. pose proof (asin_bound a). pose proof PI_RGT_0. destruct (Rlt_dec 0 (asin a)) as [|N]; [easy|exfalso].
  assert (S0 := sin_asin a ltac:(lra)). assert (sin (asin a) <= sin 0) by (apply sin_incr_1; lra). rewrite sin_0 in *. lra.
Qed.
Lemma kte_range a x : 0 < a < 1 -> -1 <= x <= 1 -> -1 < a * x < 1.
Proof. intros. nra. Qed.
Lemma kte_derive a x : 0 < a < 1 -> -1 < a * x < 1 ->
  is_derive (fun y => asin (a * y) / asin a) x (a / (asin a * sqrt (1 - a ^ 2 * x ^ 2))).
Proof.
  intros Ha Hx. pose proof (asin_pos a ltac:(lra)) as P.
  assert (Q : 0 < sqrt (1 - a ^ 2 * x ^ 2)) by (apply sqrt_lt_R0; nra).
  apply (is_derive_ext (fun y => / asin a * asin (a * y))); [intros t; change (/ asin a * asin (a * t) = asin (a * t) / asin a); unfold Rdiv; ring|].
  replace (a / (asin a * sqrt (1 - a ^ 2 * x ^ 2))) with (/ asin a * (a * (1 / sqrt (1 - (a * x) ^ 2)))).
  2:{ replace ((a * x) ^ 2) with (a ^ 2 * x ^ 2) by ring. field. lra. }
  apply @is_derive_scal. apply (is_derive_comp asin (fun y => a * y) x (1 / sqrt (1 - (a * x) ^ 2)) a).
  - now apply asin_derive.
  - auto_derive; [easy|ring].
Qed.

(** ** The transplanted rule *)
Lemma combine_mul (w : list R) (xs : list R) (j h : R -> R) : length w = length xs ->
  dotR (map (fun p => fst p * snd p) (combine w (map j xs))) (map h xs) = dotR w (map (fun x => h x * j x) xs).
Proof.
  revert xs. unfold dotR. induction w as [|a w IH]; intros [|x xs] H; try discriminate; [reflexivity|]. cbn [map combine fold_right fst snd]. rewrite IH by (cbn [length] in H; lia). ring.
Qed.
Lemma transplanted_run q m g gp : wf_quad q -> q_dim q = 1%nat ->
  let xs := map (fun c => nth 0 c 0) (q_nodes q) in
  tm_fun m xs = Ok (map g xs, map gp xs) ->
  exists q', transplanted_1d q m = Ok q' /\ q_flat q' = q_flat q /\ q_dim q' = 1%nat /\ wf_quad q'
    /\ q_nodes q' = map (fun x => [g x]) xs
    /\ q_weights q' = map (fun p => fst p * snd p) (combine (q_weights q) (map gp xs))
    /\ q_exact q' = (if tm_identity m then q_exact q else None)
    /\ forall phi, rule q' phi = rule q (fun c => phi [g (nth 0 c 0)] * gp (nth 0 c 0)).
Proof.
  intros [W L] D xs E. assert (LX : length (q_weights q) = length xs) by (unfold xs; now rewrite map_length).
  unfold transplanted_1d. rewrite D, orb_true_r. cbn [negb]. fold xs. rewrite E. cbn [bind]. rewrite map_length, LX, Nat.eqb_refl. cbn [negb].
  eexists. split; [reflexivity|]. cbn [q_flat q_dim q_nodes q_weights q_exact]. split; [reflexivity|]. split; [reflexivity|]. split; [|split; [|split; [|split]]].
  - apply wf_of_lists. rewrite (map_length g), (map_length (fun p => fst p * snd p)), combine_length, (map_length gp). lia.
  - now rewrite map_map.
  - reflexivity.
  - unfold exact_to. destruct (tm_identity m), (q_exact q); reflexivity.
  - intros phi. unfold rule. cbn [q_weights q_nodes]. rewrite !map_map. rewrite (combine_mul _ xs gp (fun x => phi [g x]) LX). unfold xs. now rewrite map_map.
Qed.
