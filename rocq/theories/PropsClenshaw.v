(** * C39: Clenshaw-Curtis and Fejer rules are interpolatory *)
From Coquelicot Require Import Coquelicot.
From Coq Require Import List Arith Bool ZArith QArith Reals Lra Lia.
From Verif Require Import Py RSum ModelNd ModelShapes ModelNodes ModelModes ModelQuad ModelGauss ModelClenshaw.
From Verif Require Import ProofMonomial SpecPoly ProofPoly1 ProofQuad ProofGauss2 ProofKronrod ProofClenshaw.
From Verif Require ProofEquispaced.
Import ListNotations.
Local Open Scope R_scope.

(** ** The arrays as functions of the index *)
Lemma fold_ends_spec {A} (f : A -> A -> A) (w : list A) d n : length w = S n ->
  fold_ends f w = map (fun j => f (nth j w d) (nth (n - j) w d)) (seq 0 n).
Proof.
  intros L. unfold fold_ends. assert (L1 : length (removelast w) = n).
  { destruct w as [|a w]; [discriminate|]. pose proof (@app_removelast_last A (a :: w) a ltac:(discriminate)) as H. apply (f_equal (@length A)) in H. rewrite app_length in H. cbn [length] in *. lia. }
  assert (L2 : length (rev (tl w)) = n) by (rewrite rev_length; destruct w; cbn in *; lia).
  apply (nth_ext _ _ (f d d) (f d d)); [rewrite !map_length, combine_length, seq_length; lia|]. intros i Hi. rewrite map_length, combine_length in Hi.
  refine (eq_trans (map_nth (fun p => f (fst p) (snd p)) (combine (removelast w) (rev (tl w))) (d, d) i) _). rewrite combine_nth by lia. cbn [fst snd].
  rewrite (nth_indep _ (f d d) ((fun j => f (nth j w d) (nth (n - j) w d)) 0%nat)) by (rewrite map_length, seq_length; lia).
  rewrite (map_nth (fun j => f (nth j w d) (nth (n - j) w d)) (seq 0 n) 0%nat i), seq_nth by lia. cbn [Nat.add]. f_equal.
  - assert (w <> []) by (intros ->; discriminate). rewrite (app_removelast_last d H) at 2. rewrite app_nth1 by lia. easy.
  - rewrite rev_nth by (rewrite rev_length in L2; lia). rewrite rev_length in L2. rewrite L2. destruct w as [|a w]; [discriminate|]. cbn [tl]. replace (n - i)%nat with (S (n - S i)) by lia. easy.
Qed.
Definition cc_b (n j : nat) : R := if (j <? n / 2)%nat then 2 / INR (2 * j + 1) / (INR (2 * j + 1) - 2) else if (j =? n / 2)%nat then 1 / (2 * INR (n / 2) - 1) else 0.
Definition cc_v (n j : nat) : R := 0 - cc_b n j - cc_b n (n - j).
Lemma half_bounds n : (2 * (n / 2) <= n < 2 * (n / 2) + 2)%nat.
Proof. pose proof (Nat.div_mod n 2 ltac:(lia)). pose proof (Nat.mod_upper_bound n 2 ltac:(lia)). lia. Qed.
Lemma nth_repeat_any {A} (a : A) n k d : (k < n)%nat -> nth k (repeat a n) d = a.
Proof. revert k. induction n as [|n IH]; intros k H; [lia|]. destruct k as [|k]; [reflexivity|]. cbn [repeat nth]. apply IH. lia. Qed.
Lemma cc_vector_spec n : (2 <= n)%nat -> cc_vector n = map (cc_v n) (seq 0 n).
Proof.
  intros Hn. pose proof (half_bounds n) as HB. set (r := (n / 2)%nat) in *. unfold cc_vector. 
  assert (LN : length (odd_numbers n) = r) by (unfold odd_numbers; now rewrite map_length, seq_length). rewrite LN.
  assert (LA : last (odd_numbers n) 0 = 2 * INR r - 1).
  { unfold odd_numbers. fold r. destruct r as [|r']; [lia|]. rewrite last_map_seq. rewrite plus_INR, mult_INR, (S_INR r'). change (INR 2) with 2. change (INR 1) with 1. ring. }
  assert (NE : exists a l, odd_numbers n = a :: l) by (destruct (odd_numbers n) as [|a l]; [cbn [length] in LN; lia|now exists a, l]).
  replace (match odd_numbers n with [] => [] | _ :: _ => [1 / last (odd_numbers n) 0] end) with [1 / (2 * INR r - 1)] by (rewrite <- LA; destruct NE as (a & l & ->); reflexivity).
  set (w := map (fun k => 2 / k / (k - 2)) (odd_numbers n) ++ [1 / (2 * INR r - 1)] ++ repeat 0 (n - r)).
  assert (LW : length w = S n) by (unfold w; rewrite !app_length, map_length, LN, repeat_length; cbn [length]; lia).
  rewrite (fold_ends_spec _ w 0 n LW).
  assert (W : forall j, (j <= n)%nat -> nth j w 0 = cc_b n j).
  { intros j Hj. unfold w, cc_b. fold r. destruct (Nat.ltb_spec j r) as [H|H].
    - rewrite app_nth1 by (rewrite map_length; lia). unfold odd_numbers. fold r. rewrite map_map, nth_map_seq by easy. reflexivity.
    - rewrite app_nth2 by (rewrite map_length; lia). rewrite map_length, LN. destruct (Nat.eqb_spec j r) as [->|NJ].
      + rewrite Nat.sub_diag. reflexivity.
      + destruct (j - r)%nat as [|k] eqn:Ek; [lia|]. cbn [app nth]. apply nth_repeat_any. lia. }
  apply map_ext_in. intros j Hj. apply in_seq in Hj. unfold cc_v. now rewrite !W by lia.
Qed.
Definition cc_g (n j : nat) : R := (-1 + (if (j =? n / 2)%nat then INR n else 0) + (if (j =? n - n / 2)%nat then INR n else 0)) / (INR n ^ 2 - 1 + INR (n mod 2)).
Lemma cc_g0_spec n : cc_g0 n = map (cc_g n) (seq 0 n).
Proof.
  unfold cc_g0. assert (LN : length (odd_numbers n) = (n / 2)%nat) by (unfold odd_numbers; now rewrite map_length, seq_length). rewrite LN.
  unfold add_at. rewrite !map_length, !seq_length, !repeat_length, map_map. apply map_ext_in. intros j Hj. apply in_seq in Hj. unfold cc_g. f_equal.
  rewrite nth_map_seq by lia. rewrite nth_repeat_any by lia. destruct (j =? n / 2)%nat, (j =? n - n / 2)%nat; ring.
Qed.

(** ** The inverse Fourier transform of a symmetric real vector *)
Definition idft (n : nat) (u : nat -> R) (k : nat) : R := rsum (fun j => u j * cos (2 * PI * INR j * INR k / INR n)) n / INR n.
Definition symm (n : nat) (u : nat -> R) : Prop := forall j, (0 < j < n)%nat -> u (n - j)%nat = u j.
Lemma rsum_reflect (g : nat -> R) n : rsum (fun k => g (S k)) (n - 1) = rsum (fun k => g (n - S k)%nat) (n - 1).
Proof. rewrite rsum_rev. apply rsum_ext. intros k Hk. f_equal. lia. Qed.
Lemma rsum_first (g : nat -> R) n : (1 <= n)%nat -> rsum g n = g 0%nat + rsum (fun k => g (S k)) (n - 1).
Proof. intros H. destruct n as [|n]; [lia|]. rewrite rsum_shift. now rewrite Nat.sub_succ, Nat.sub_0_r. Qed.
Lemma odd_sum (g : nat -> R) n : (1 <= n)%nat -> g 0%nat = 0 -> (forall j, (0 < j < n)%nat -> g (n - j)%nat = - g j) -> rsum g n = 0.
Proof.
  intros H0 H1 H2. rewrite rsum_first, H1 by easy. assert (E : rsum (fun k => g (S k)) (n - 1) = - rsum (fun k => g (S k)) (n - 1)); [|lra].
  rewrite rsum_reflect at 1. rewrite (rsum_ext _ (fun k => -1 * g (S k))); [rewrite rsum_scal; ring|]. intros k Hk. rewrite H2 by lia. ring.
Qed.
Lemma half_turn n j k : (1 <= n)%nat -> (j <= n)%nat ->
  cos (2 * PI * INR (n - j) * INR k / INR n) = cos (2 * PI * INR j * INR k / INR n) /\ sin (2 * PI * INR (n - j) * INR k / INR n) = - sin (2 * PI * INR j * INR k / INR n).
Proof.
  intros H1 H2. assert (0 < INR n) by (apply lt_0_INR; lia). rewrite minus_INR by easy. replace (2 * PI * (INR n - INR j) * INR k / INR n) with (2 * INR k * PI - 2 * PI * INR j * INR k / INR n) by (field; lra).
  rewrite cos_minus, sin_minus, cos_2kPI, sin_2kPI. split; ring.
Qed.
Lemma ifft_symm n u : (1 <= n)%nat -> symm n u -> ifft (map (fun a => (a, 0)) (map u (seq 0 n))) = map (fun k => (idft n u k, 0)) (seq 0 n).
Proof.
  intros Hn Hu. unfold ifft. rewrite !map_length, seq_length. assert (P : 0 < INR n) by (apply lt_0_INR; lia).
  assert (N : forall j, (j < n)%nat -> nth j (map (fun a => (a, 0)) (map u (seq 0 n))) (0, 0) = (u j, 0)) by (intros; rewrite map_map, (ProofEquispaced.nth_map_seq (fun i => (u i, 0))) by easy; reflexivity).
  apply map_ext_in. intros k Hk. apply in_seq in Hk. apply (f_equal2 pair).
  - unfold idft. f_equal. apply rsum_ext. intros j Hj. rewrite N by easy. cbn [fst snd]. ring.
  - rewrite (rsum_ext _ (fun j => u j * sin (2 * PI * INR j * INR k / INR n))) by (intros j Hj; rewrite N by easy; cbn [fst snd]; ring).
    rewrite odd_sum; [unfold Rdiv; ring|easy| |].
    + change (INR 0) with 0. replace (2 * PI * 0 * INR k / INR n) with 0 by (field; lra). rewrite sin_0. ring.
    + intros j Hj. rewrite Hu by easy. rewrite (proj2 (half_turn n j k Hn ltac:(lia))). ring.
Qed.
Lemma checked_zero (f : nat -> R) l : checked_real (map (fun k => (f k, 0)) l) = Ok (map f l).
Proof.
  unfold checked_real. replace (forallb _ _) with true.
  - now rewrite map_map.
  - symmetry. apply forallb_forall. intros c Hc. apply in_map_iff in Hc. destruct Hc as (k & <- & _). cbn [snd]. rewrite Rabs_R0. destruct (Rle_dec 0 (/ 10 ^ 8)) as [|N]; [easy|]. elim N. left. apply Rinv_0_lt_compat. lra.
Qed.
Lemma idft_0 n u : (1 <= n)%nat -> idft n u 0 = rsum u n / INR n.
Proof. intros H. unfold idft. f_equal. apply rsum_ext. intros j _. change (INR 0) with 0. replace (2 * PI * INR j * 0 / INR n) with 0 by (unfold Rdiv; ring). rewrite cos_0. ring. Qed.
Lemma idft_sym n u k : (1 <= n)%nat -> (k <= n)%nat -> idft n u (n - k) = idft n u k.
Proof.
  intros Hn Hk. unfold idft. f_equal. apply rsum_ext. intros j _. f_equal. pose proof (proj1 (half_turn n k j Hn Hk)) as H.
  replace (2 * PI * INR j * INR (n - k) / INR n) with (2 * PI * INR (n - k) * INR j / INR n) by (unfold Rdiv; ring). rewrite H. f_equal. unfold Rdiv. ring.
Qed.
Lemma dft_idft n u q : (1 <= n)%nat -> symm n u -> (q < n)%nat -> rsum (fun k => idft n u k * cos (2 * PI * INR q * INR k / INR n)) n = u q.
Proof.
  intros Hn Hu Hq. assert (P : 0 < INR n) by (apply lt_0_INR; lia).
  rewrite (rsum_ext _ (fun k => rsum (fun j => u j / INR n / 2 * (cos (2 * PI * INR (j + q) * INR k / INR n) + cos (2 * PI * INR (j - q + (q - j)) * INR k / INR n))) n)).
  2:{ intros k _. unfold idft. unfold Rdiv at 1. rewrite Rmult_assoc, <- rsum_scal_r. apply rsum_ext. intros j _.
      replace (cos (2 * PI * INR (j - q + (q - j)) * INR k / INR n)) with (cos (2 * PI * (INR j - INR q) * INR k / INR n)).
      2:{ destruct (le_lt_dec q j) as [H|H].
          - replace (q - j)%nat with 0%nat by lia. rewrite Nat.add_0_r, minus_INR by easy. easy.
          - replace (j - q)%nat with 0%nat by lia. cbn [Nat.add]. rewrite minus_INR by lia. rewrite <- cos_neg. f_equal. field. lra. }
      rewrite plus_INR. replace (2 * PI * (INR j + INR q) * INR k / INR n) with (2 * PI * INR j * INR k / INR n + 2 * PI * INR q * INR k / INR n) by (field; lra).
      replace (2 * PI * (INR j - INR q) * INR k / INR n) with (2 * PI * INR j * INR k / INR n - 2 * PI * INR q * INR k / INR n) by (field; lra).
      rewrite cos_plus, cos_minus. field. lra. }
  rewrite rsum_swap. rewrite (rsum_ext _ (fun j => u j / 2 * (if ((j + q =? 0) || (j + q =? n))%nat then 1 else 0) + u j / 2 * (if (j =? q)%nat then 1 else 0))).
  2:{ intros j Hj. rewrite rsum_scal, rsum_plus, !(dft_sum n Hn) by lia. 
      replace ((j - q + (q - j) =? 0) || (j - q + (q - j) =? n))%nat with (j =? q)%nat.
      2:{ destruct (Nat.eqb_spec j q), (Nat.eqb_spec (j - q + (q - j)) 0), (Nat.eqb_spec (j - q + (q - j)) n); try lia; reflexivity. }
      destruct ((j + q =? 0) || (j + q =? n))%nat, (j =? q)%nat; field; lra. }
  rewrite rsum_plus. rewrite (rsum_single (fun j => u j / 2 * (if (j =? q)%nat then 1 else 0)) n q Hq).
  2:{ intros j Hj NE. destruct (Nat.eqb_spec j q); [easy|]. ring. }
  rewrite Nat.eqb_refl. destruct (Nat.eq_dec q 0) as [->|Q0].
  - rewrite (rsum_single _ n 0%nat Hq).
    + cbn [Nat.add Nat.eqb orb]. field.
    + intros j Hj NE. rewrite Nat.add_0_r. destruct (Nat.eqb_spec j 0), (Nat.eqb_spec j n); try lia. cbn [orb]. ring.
  - rewrite (rsum_single _ n (n - q)%nat ltac:(lia)).
    + replace (n - q + q)%nat with n by lia. rewrite Nat.eqb_refl, Bool.orb_true_r, Hu by lia. field.
    + intros j Hj NE. destruct (Nat.eqb_spec (j + q) 0), (Nat.eqb_spec (j + q) n); try lia. cbn [orb]. ring.
Qed.

(** ** The vectors of the two rules with nodes cos(k pi / n) *)
Lemma cc_v_symm n : symm n (cc_v n).
Proof. intros j Hj. unfold cc_v. replace (n - (n - j))%nat with j by lia. ring. Qed.
Lemma cc_g_symm n : symm n (cc_g n).
Proof.
  intros j Hj. pose proof (half_bounds n) as HB. unfold cc_g. f_equal. set (r := (n / 2)%nat) in *.
  destruct (Nat.eqb_spec (n - j) r), (Nat.eqb_spec (n - j) (n - r)), (Nat.eqb_spec j r), (Nat.eqb_spec j (n - r)); try lia; ring.
Qed.
Lemma odd_ne0 q : 2 * INR q - 1 <> 0.
Proof.
  intros H. assert (E : INR (2 * q) = INR 1) by (rewrite mult_INR; change (INR 2) with 2; change (INR 1) with 1; lra). apply INR_eq in E. lia.
Qed.
Lemma sq4_ne0 q : 1 - 4 * INR q ^ 2 <> 0.
Proof. pose proof (odd_ne0 q). pose proof (pos_INR q). replace (1 - 4 * INR q ^ 2) with (- ((2 * INR q - 1) * (2 * INR q + 1))) by ring. apply Ropp_neq_0_compat, Rmult_integral_contrapositive. split; lra. Qed.
Lemma cc_v_low n q : (q < n / 2)%nat -> cc_v n q = 2 / (1 - 4 * INR q ^ 2).
Proof.
  intros Hq. pose proof (half_bounds n) as HB. unfold cc_v, cc_b. set (r := (n / 2)%nat) in *. destruct (Nat.ltb_spec q r); [|lia]. destruct (Nat.ltb_spec (n - q) r); [lia|]. destruct (Nat.eqb_spec (n - q) r); [lia|].
  rewrite plus_INR, mult_INR. change (INR 2) with 2. change (INR 1) with 1. pose proof (odd_ne0 q). pose proof (pos_INR q). pose proof (sq4_ne0 q). field. repeat split; lra.
Qed.
Lemma cc_v_mid n : (2 <= n)%nat -> cc_v n (n / 2) = - 1 / (2 * INR (n / 2) - 1) - (if (n mod 2 =? 0)%nat then 1 / (2 * INR (n / 2) - 1) else 0).
Proof.
  intros Hn. pose proof (half_bounds n) as HB. pose proof (Nat.div_mod n 2 ltac:(lia)) as DM. unfold cc_v, cc_b. set (r := (n / 2)%nat) in *. rewrite Nat.ltb_irrefl, Nat.eqb_refl. destruct (Nat.ltb_spec (n - r) r); [lia|].
  pose proof (odd_ne0 r). destruct (Nat.eqb_spec (n - r) r), (Nat.eqb_spec (n mod 2) 0); try lia; field; assumption.
Qed.
Lemma cc_v_sum n : (2 <= n)%nat -> rsum (cc_v n) n = 0.
Proof.
  intros Hn. pose proof (half_bounds n) as HB. set (r := (n / 2)%nat) in *.
  assert (T : forall k, rsum (fun j => 2 / INR (2 * j + 1) / (INR (2 * j + 1) - 2)) k = - 1 - 1 / (2 * INR k - 1)).
  { induction k as [|k IH]; [cbn [rsum]; change (INR 0) with 0; field|]. rewrite rsum_S, IH, S_INR, plus_INR, mult_INR. change (INR 2) with 2. change (INR 1) with 1. pose proof (odd_ne0 k). pose proof (pos_INR k). field. repeat split; lra. }
  assert (B : rsum (cc_b n) (S n) = - 1).
  { rewrite (rsum_tail _ (S r)).
    - rewrite rsum_S. rewrite (rsum_ext _ (fun j => 2 / INR (2 * j + 1) / (INR (2 * j + 1) - 2))). 2:{ intros j Hj. unfold cc_b. fold r. destruct (Nat.ltb_spec j r); [easy|lia]. }
      rewrite T. unfold cc_b. fold r. rewrite Nat.ltb_irrefl, Nat.eqb_refl. field. apply odd_ne0.
    - lia.
    - intros k Hk. unfold cc_b. fold r. destruct (Nat.ltb_spec k r); [lia|]. destruct (Nat.eqb_spec k r); [lia|easy]. }
  assert (B0 : cc_b n 0 = -2). { unfold cc_b. fold r. destruct (Nat.ltb_spec 0 r); [|lia]. cbn [Nat.mul Nat.add]. change (INR 1) with 1. field. }
  assert (Bn : cc_b n n = 0). { unfold cc_b. fold r. destruct (Nat.ltb_spec n r); [lia|]. destruct (Nat.eqb_spec n r); [lia|easy]. }
  assert (E1 : rsum (cc_b n) n = -1) by (rewrite rsum_S in B; lra).
  assert (E2 : rsum (fun j => cc_b n (n - j)%nat) n = 1).
  { rewrite rsum_rev, rsum_S in B. replace (S n - 1 - n)%nat with 0%nat in B by lia. rewrite B0 in B. replace 1 with (-1 + 2) by ring. rewrite <- B. rewrite (rsum_ext (fun k => cc_b n (S n - 1 - k)) (fun j => cc_b n (n - j))) by (intros; f_equal; lia). ring. }
  unfold cc_v. rewrite (rsum_ext _ (fun j => -1 * cc_b n j - cc_b n (n - j)%nat)) by (intros; ring). rewrite rsum_minus, rsum_scal, E1, E2. ring.
Qed.
Definition cc_u (n j : nat) : R := cc_v n j + cc_g n j.
Lemma cc_u_symm n : symm n (cc_u n).
Proof. intros j Hj. unfold cc_u. now rewrite cc_v_symm, cc_g_symm. Qed.
Lemma cc_den n : (2 <= n)%nat -> 0 < INR n ^ 2 - 1 + INR (n mod 2).
Proof. intros H. pose proof (pos_INR (n mod 2)). apply le_INR in H. change (INR 2) with 2 in H. nra. Qed.
Lemma cc_u_0 n : (2 <= n)%nat -> idft n (cc_u n) 0 = 1 / (INR n ^ 2 - 1 + INR (n mod 2)).
Proof.
  intros Hn. rewrite idft_0 by lia. unfold cc_u. rewrite rsum_plus, cc_v_sum by easy. pose proof (cc_den n Hn) as D. assert (P : 0 < INR n) by (apply lt_0_INR; lia). pose proof (half_bounds n) as HB. set (r := (n / 2)%nat) in *.
  unfold cc_g. fold r. set (den := INR n ^ 2 - 1 + INR (n mod 2)) in *. unfold Rdiv at 2. rewrite rsum_scal_r, !rsum_plus, rsum_const.
  assert (SG : forall c, (c < n)%nat -> rsum (fun k => if (k =? c)%nat then INR n else 0) n = INR n).
  { intros c Hc. rewrite (rsum_single _ n c Hc); [now rewrite Nat.eqb_refl|]. intros j _ NE. destruct (Nat.eqb_spec j c); [easy|reflexivity]. }
  rewrite !SG by lia.
  field. lra.
Qed.
(** What the transform has to give for the even Chebyshev polynomials *)
Lemma cc_u_value n q : (2 <= n)%nat -> (2 * q <= n)%nat -> cc_u n q + idft n (cc_u n) 0 = 2 / (1 - 4 * INR q ^ 2).
Proof.
  intros Hn Hq. rewrite cc_u_0 by easy. pose proof (cc_den n Hn) as D. pose proof (half_bounds n) as HB. pose proof (Nat.div_mod n 2 ltac:(lia)) as DM. unfold cc_u. destruct (Nat.eq_dec q (n / 2)) as [->|NQ].
  - rewrite cc_v_mid by easy. unfold cc_g. rewrite Nat.eqb_refl. set (r := (n / 2)%nat) in *. pose proof (odd_ne0 r) as O. pose proof (sq4_ne0 r) as S4.
    destruct (Nat.eqb_spec (n mod 2) 0) as [E|E].
    + rewrite E in *. replace (n - r)%nat with r by lia. rewrite Nat.eqb_refl. change (INR 0) with 0. change (INR 0) with 0 in D. assert (EN : INR n = 2 * INR r) by (replace n with (2 * r)%nat by lia; rewrite mult_INR; reflexivity). rewrite EN in *.
      field. repeat split; try assumption; nra.
    + assert (M1 : (n mod 2 = 1)%nat) by (pose proof (Nat.mod_upper_bound n 2 ltac:(lia)); lia). rewrite M1 in *. destruct (Nat.eqb_spec r (n - r)); [lia|]. change (INR 1) with 1. change (INR 1) with 1 in D. assert (EN : INR n = 2 * INR r + 1) by (replace n with (2 * r + 1)%nat by lia; rewrite plus_INR, mult_INR; reflexivity). rewrite EN in *.
      pose proof (pos_INR r). field. repeat split; try assumption; nra.
  - rewrite cc_v_low by lia. unfold cc_g. destruct (Nat.eqb_spec q (n / 2)); [easy|]. destruct (Nat.eqb_spec q (n - n / 2)); [lia|]. pose proof (sq4_ne0 q). field. split; [intros Z; apply H; lra|lra].
Qed.

(** ** The rules as sums *)
Lemma cos_reflect n p k : (1 <= n)%nat -> (k <= n)%nat -> cos (INR p * (INR (n - k) * PI / INR n)) = (-1) ^ p * cos (INR p * (INR k * PI / INR n)).
Proof.
  intros Hn Hk. assert (P : 0 < INR n) by (apply lt_0_INR; lia). rewrite minus_INR by easy. replace (INR p * ((INR n - INR k) * PI / INR n)) with (INR p * PI - INR p * (INR k * PI / INR n)) by (field; lra).
  rewrite cos_minus, cos_kPI, sin_kPI. ring.
Qed.
Lemma even_or_odd p : (exists q, p = (2 * q)%nat) \/ (exists q, p = S (2 * q)).
Proof. destruct (Nat.Even_or_Odd p) as [[q H]|[q H]]; [left|right]; exists q; lia. Qed.
Lemma cheb_int_even q : cheb_int (2 * q) = 2 / (1 - 4 * INR q ^ 2).
Proof. unfold cheb_int. replace (Nat.even (2 * q)) with true by (symmetry; apply Nat.even_spec; now exists q). rewrite mult_INR. change (INR 2) with 2. f_equal. ring. Qed.
Lemma cheb_int_odd q : cheb_int (S (2 * q)) = 0.
Proof. unfold cheb_int. replace (Nat.even (S (2 * q))) with false; [easy|]. symmetry. rewrite Nat.even_succ, <- Nat.negb_even. now replace (Nat.even (2 * q)) with true by (symmetry; apply Nat.even_spec; now exists q). Qed.
Definition cc_rule (n : nat) (f : R -> R) : R := rsum (fun k => idft n (cc_u n) k * f (cos (INR k * PI / INR n))) (n + 1).
Lemma cc_rule_cheb n p : (2 <= n)%nat -> (p <= n)%nat -> cc_rule n (cheb p) = cheb_int p.
Proof.
  intros Hn Hp. assert (P : 0 < INR n) by (apply lt_0_INR; lia). unfold cc_rule. rewrite (rsum_ext _ (fun k => idft n (cc_u n) k * cos (INR p * (INR k * PI / INR n)))) by (intros; now rewrite cheb_cos).
  destruct (even_or_odd p) as [[q ->]|[q ->]].
  - rewrite cheb_int_even, <- (cc_u_value n q Hn Hp). rewrite Nat.add_1_r, rsum_S. f_equal.
    + rewrite <- (dft_idft n (cc_u n) q ltac:(lia) (cc_u_symm n) ltac:(lia)). apply rsum_ext. intros k _. f_equal. f_equal. rewrite mult_INR. change (INR 2) with 2. field. lra.
    + pose proof (idft_sym n (cc_u n) 0 ltac:(lia) ltac:(lia)) as H. rewrite Nat.sub_0_r in H. rewrite H. replace (INR (2 * q) * (INR n * PI / INR n)) with (2 * INR q * PI) by (rewrite mult_INR; change (INR 2) with 2; field; lra). rewrite cos_2kPI. ring.
  - rewrite cheb_int_odd. set (g := fun k => idft n (cc_u n) k * cos (INR (S (2 * q)) * (INR k * PI / INR n))).
    assert (E : rsum g (n + 1) = - rsum g (n + 1)); [|lra]. rewrite rsum_rev at 1. rewrite (rsum_ext _ (fun k => -1 * g k)); [rewrite rsum_scal; ring|].
    intros k Hk. replace (n + 1 - 1 - k)%nat with (n - k)%nat by lia. unfold g. rewrite idft_sym, cos_reflect by lia. rewrite pow_1_odd. ring.
Qed.
Definition f2_rule (n : nat) (f : R -> R) : R := rsum (fun k => idft n (cc_v n) (S k) * f (cos (INR (S k) * PI / INR n))) (n - 1).
Lemma f2_rule_cheb n p : (2 <= n)%nat -> (p <= n - 2)%nat -> f2_rule n (cheb p) = cheb_int p.
Proof.
  intros Hn Hp. assert (P : 0 < INR n) by (apply lt_0_INR; lia). pose proof (half_bounds n) as HB. set (g := fun k => idft n (cc_v n) k * cos (INR p * (INR k * PI / INR n))).
  assert (Z : idft n (cc_v n) 0 = 0) by (rewrite idft_0, cc_v_sum by lia; field; lra).
  assert (E : f2_rule n (cheb p) = rsum g n).
  { rewrite (rsum_first g n) by lia. unfold g at 1. rewrite Z, Rmult_0_l, Rplus_0_l. unfold f2_rule. apply rsum_ext. intros k _. unfold g. now rewrite cheb_cos. }
  rewrite E. destruct (even_or_odd p) as [[q ->]|[q ->]].
  - rewrite cheb_int_even, <- (cc_v_low n q) by lia. rewrite <- (dft_idft n (cc_v n) q ltac:(lia) (cc_v_symm n) ltac:(lia)). apply rsum_ext. intros k _. unfold g. f_equal. f_equal. rewrite mult_INR. change (INR 2) with 2. field. lra.
  - rewrite cheb_int_odd. apply odd_sum; [lia|unfold g; rewrite Z; ring|]. intros j Hj. unfold g. rewrite idft_sym, cos_reflect by lia. rewrite pow_1_odd. ring.
Qed.

(** ** Fejer's first rule *)
Definition f1_h (n j : nat) : R := if (j <? n - n / 2)%nat then 2 / (1 - 4 * INR j ^ 2) else 0.
Definition f1_th (n k : nat) : R := (INR k + 1 / 2) * PI / INR n.
Definition f1_w (n k : nat) : R := (2 * rsum (fun j => f1_h n j * cos (INR (2 * j) * f1_th n k)) (n - n / 2) - 2) / INR n.
Lemma f1_turn n j k : (1 <= n)%nat -> (j <= n)%nat ->
  cos (INR (2 * (n - j)) * f1_th n k) = - cos (INR (2 * j) * f1_th n k) /\ sin (INR (2 * (n - j)) * f1_th n k) = sin (INR (2 * j) * f1_th n k).
Proof.
  intros Hn Hj. assert (P : 0 < INR n) by (apply lt_0_INR; lia). rewrite !mult_INR, minus_INR by easy. change (INR 2) with 2. unfold f1_th.
  replace (2 * (INR n - INR j) * ((INR k + 1 / 2) * PI / INR n)) with (2 * INR k * PI + PI - 2 * INR j * ((INR k + 1 / 2) * PI / INR n)) by (field; lra).
  rewrite cos_minus, sin_minus, neg_cos, neg_sin, cos_2kPI, sin_2kPI. split; ring.
Qed.
Lemma f1_vector n : (1 <= n)%nat ->
  let r := length (odd_numbers n) in let m := (n - r)%nat in
  ifft (fold_ends (fun a b => (fst a + fst b, snd a - snd b))
    (map (fun K => let c := 2 / (1 - 4 * INR K ^ 2) in (c * cos (PI * INR K / INR n), c * sin (PI * INR K / INR n))) (seq 0 m) ++ repeat (0, 0) (r + 1)))
  = map (fun k => (f1_w n k, 0)) (seq 0 n).
Proof.
  intros Hn r m. assert (P : 0 < INR n) by (apply lt_0_INR; lia). pose proof (half_bounds n) as HB.
  assert (LN : r = (n / 2)%nat) by (unfold r, odd_numbers; now rewrite map_length, seq_length). unfold m. rewrite LN. clear m. 
  set (w := map _ _ ++ _). assert (LW : length w = S n) by (unfold w; rewrite app_length, map_length, seq_length, repeat_length; lia).
  rewrite (fold_ends_spec _ w (0, 0) n LW).
  assert (W : forall j, (j <= n)%nat -> nth j w (0, 0) = (f1_h n j * cos (PI * INR j / INR n), f1_h n j * sin (PI * INR j / INR n))).
  { intros j Hj. unfold w, f1_h. destruct (Nat.ltb_spec j (n - n / 2)) as [H|H].
    - rewrite app_nth1 by (rewrite map_length, seq_length; lia). rewrite (ProofEquispaced.nth_map_seq _ (0, 0)) by easy. reflexivity.
    - rewrite app_nth2 by (rewrite map_length, seq_length; lia). rewrite map_length, seq_length, nth_repeat_any by lia. apply (f_equal2 pair); ring. }
  set (d := fun j => f1_h n j - f1_h n (n - j)).
  assert (TH : forall j k, 2 * PI * INR j * INR k / INR n + PI * INR j / INR n = INR (2 * j) * f1_th n k).
  { intros j k. rewrite mult_INR. change (INR 2) with 2. unfold f1_th. field. lra. }
  unfold ifft. rewrite map_length, seq_length.
  assert (V : forall j, (j < n)%nat -> nth j (map (fun j0 => (fst (nth j0 w (0, 0)) + fst (nth (n - j0) w (0, 0)), snd (nth j0 w (0, 0)) - snd (nth (n - j0) w (0, 0)))) (seq 0 n)) (0, 0)
      = (d j * cos (PI * INR j / INR n), d j * sin (PI * INR j / INR n))).
  { intros j Hj. rewrite (ProofEquispaced.nth_map_seq _ (0, 0)) by easy. rewrite !W by lia. cbn [fst snd]. rewrite minus_INR by lia.
    replace (PI * (INR n - INR j) / INR n) with (PI - PI * INR j / INR n) by (field; lra). rewrite cos_minus, sin_minus, cos_PI, sin_PI. unfold d. apply (f_equal2 pair); ring. }
  assert (H0 : f1_h n 0 = 2). { unfold f1_h. destruct (Nat.ltb_spec 0 (n - n / 2)); [|lia]. change (INR 0) with 0. field. }
  assert (Hn0 : f1_h n n = 0). { unfold f1_h. destruct (Nat.ltb_spec n (n - n / 2)); [lia|easy]. }
  apply map_ext_in. intros k _. apply (f_equal2 pair).
  - unfold f1_w. f_equal. rewrite (rsum_ext _ (fun j => d j * cos (INR (2 * j) * f1_th n k))).
    2:{ intros j Hj. rewrite V by easy. cbn [fst snd]. rewrite <- TH, cos_plus. ring. }
    set (S1 := rsum (fun j => f1_h n j * cos (INR (2 * j) * f1_th n k)) (n - n / 2)).
    assert (SA : rsum (fun j => f1_h n j * cos (INR (2 * j) * f1_th n k)) n = S1).
    { apply rsum_tail; [lia|]. intros j Hj. unfold f1_h. destruct (Nat.ltb_spec j (n - n / 2)); [lia|]. ring. }
    unfold d. rewrite (rsum_ext _ (fun j => f1_h n j * cos (INR (2 * j) * f1_th n k) - f1_h n (n - j) * cos (INR (2 * j) * f1_th n k))) by (intros; ring).
    rewrite rsum_minus, SA. rewrite (rsum_first (fun j => f1_h n (n - j) * cos (INR (2 * j) * f1_th n k)) n Hn). rewrite Nat.sub_0_r, Hn0.
    rewrite (rsum_reflect (fun j => f1_h n (n - j) * cos (INR (2 * j) * f1_th n k))).
    rewrite (rsum_ext _ (fun j => -1 * (f1_h n (S j) * cos (INR (2 * S j) * f1_th n k)))).
    2:{ intros j Hj. rewrite (proj1 (f1_turn n (S j) k Hn ltac:(lia))). replace (n - (n - S j))%nat with (S j) by lia. ring. }
    rewrite rsum_scal. rewrite (rsum_first (fun j => f1_h n j * cos (INR (2 * j) * f1_th n k)) n Hn) in SA. rewrite H0 in SA. change (INR (2 * 0)) with 0 in SA. rewrite Rmult_0_l, cos_0 in SA. lra.
  - rewrite (rsum_ext _ (fun j => d j * sin (INR (2 * j) * f1_th n k))).
    2:{ intros j Hj. rewrite V by easy. cbn [fst snd]. rewrite <- TH, sin_plus. ring. }
    rewrite odd_sum; [unfold Rdiv; ring|easy| |].
    + cbn [Nat.mul]. change (INR 0) with 0. rewrite Rmult_0_l, sin_0. ring.
    + intros j Hj. rewrite (proj2 (f1_turn n j k Hn ltac:(lia))). unfold d. replace (n - (n - j))%nat with j by lia. ring.
Qed.
Definition f1_rule (n : nat) (f : R -> R) : R := rsum (fun k => f1_w n k * f (cos (f1_th n k))) n.
Lemma f1_rule_cheb n p : (1 <= n)%nat -> (p <= n - 1)%nat -> f1_rule n (cheb p) = cheb_int p.
Proof.
  intros Hn Hp. assert (P : 0 < INR n) by (apply lt_0_INR; lia). pose proof (half_bounds n) as HB. unfold f1_rule.
  set (M := (n - n / 2)%nat) in *.
  rewrite (rsum_ext _ (fun k => rsum (fun j => 2 * f1_h n j / INR n / 2 * (cos (INR (2 * j + p) * f1_th n k) + cos (INR (2 * j - p + (p - 2 * j)) * f1_th n k))) M - 2 / INR n * cos (INR p * f1_th n k))).
  2:{ intros k _. rewrite cheb_cos. unfold f1_w. fold M. 
      transitivity (rsum (fun j => f1_h n j * cos (INR (2 * j) * f1_th n k)) M * (2 * cos (INR p * f1_th n k) / INR n) - 2 / INR n * cos (INR p * f1_th n k)); [field; lra|]. f_equal.
      rewrite <- rsum_scal_r. apply rsum_ext. intros j _.
      replace (cos (INR (2 * j - p + (p - 2 * j)) * f1_th n k)) with (cos (INR (2 * j) * f1_th n k - INR p * f1_th n k)).
      2:{ destruct (le_lt_dec p (2 * j)) as [H|H].
          - replace (p - 2 * j)%nat with 0%nat by lia. rewrite Nat.add_0_r, minus_INR by easy. f_equal. ring.
          - replace (2 * j - p)%nat with 0%nat by lia. cbn [Nat.add]. rewrite minus_INR by lia. rewrite <- cos_neg. f_equal. ring. }
      rewrite plus_INR, Rmult_plus_distr_r, cos_plus, cos_minus. field. lra. }
  rewrite rsum_minus, rsum_scal, rsum_swap. unfold f1_th at 3. rewrite (mid_sum n Hn p) by lia.
  rewrite (rsum_ext _ (fun j => f1_h n j * (if (2 * j + p =? 0)%nat then 1 else 0) + f1_h n j * (if (2 * j =? p)%nat then 1 else 0))).
  2:{ intros j Hj. rewrite rsum_scal, rsum_plus. unfold f1_th. rewrite !(mid_sum n Hn) by lia.
      replace (2 * j - p + (p - 2 * j) =? 0)%nat with (2 * j =? p)%nat by (destruct (Nat.eqb_spec (2 * j) p), (Nat.eqb_spec (2 * j - p + (p - 2 * j)) 0); try lia; reflexivity).
      destruct (2 * j + p =? 0)%nat, (2 * j =? p)%nat; field; lra. }
  rewrite rsum_plus. assert (H0 : f1_h n 0 = 2). { unfold f1_h. destruct (Nat.ltb_spec 0 (n - n / 2)); [|lia]. change (INR 0) with 0. field. }
  destruct (even_or_odd p) as [[q ->]|[q ->]].
  - rewrite cheb_int_even. rewrite (rsum_single (fun j => f1_h n j * (if (2 * j =? 2 * q)%nat then 1 else 0)) M q).
    + rewrite Nat.eqb_refl. destruct (Nat.eqb_spec (2 * q) 0) as [E|E].
      * assert (q = 0%nat) as -> by lia. rewrite (rsum_single _ M 0%nat); [|lia|].
        -- cbn [Nat.mul Nat.add Nat.eqb]. rewrite H0. change (INR 0) with 0. field. lra.
        -- intros j Hj NE. destruct (Nat.eqb_spec (2 * j + 2 * 0) 0); [lia|]. ring.
      * rewrite rsum_0. 2:{ intros j Hj. destruct (Nat.eqb_spec (2 * j + 2 * q) 0); [lia|]. ring. }
        unfold f1_h. destruct (Nat.ltb_spec q (n - n / 2)); [|lia]. ring.
    + lia.
    + intros j Hj NE. destruct (Nat.eqb_spec (2 * j) (2 * q)); [lia|]. ring.
  - rewrite cheb_int_odd. cbn [Nat.eqb]. rewrite !rsum_0; [ring| |].
    + intros j Hj. destruct (Nat.eqb_spec (2 * j) (S (2 * q))); [lia|]. ring.
    + intros j Hj. destruct (Nat.eqb_spec (2 * j + S (2 * q)) 0); [lia|]. ring.
Qed.

(** ** C39 *)
Lemma list_rule_exact (xs ws : nat -> R) n d flat ex phi :
  (forall p, (p <= d)%nat -> rsum (fun i => ws i * cheb p (xs i)) n = cheb_int p) -> is_poly 1 d phi ->
  exists v : R, is_RInt (fun x => phi [x]) (-1) 1 v
    /\ q_call (mkQuad flat 1 (map (fun x => [x]) (map xs (seq 0 n))) (map ws (seq 0 n)) ex) (fun x => Ok (phi x)) = Ok v.
Proof.
  intros HT Hp. exists (rsum (fun i => ws i * phi [xs i]) n). split.
  - apply (span_poly d (fun f => rsum (fun i => ws i * f (xs i)) n)) with (f := fun x => phi [x]).
    + intros f g E. apply rsum_ext. intros; now rewrite E.
    + intros f g. rewrite <- rsum_plus. apply rsum_ext. intros; ring.
    + intros c f. rewrite <- rsum_scal. apply rsum_ext. intros; ring.
    + easy.
    + now apply is_poly_poly1.
  - rewrite (q_call_rule _ _ phi); [f_equal; apply rule_of_lists|apply wf_of_lists; now rewrite !map_length|reflexivity].
Qed.
(** Clenshaw-Curtis: N + 1 nodes, exact up to degree N, as advertised. *)
Theorem C39_clenshaw_curtis (N : nat) force : (1 <= N)%nat ->
  exists q, clenshaw_curtis (Z.of_nat N) force = Ok q
    /\ length (q_nodes q) = (N + 1)%nat /\ length (q_weights q) = (N + 1)%nat /\ q_dim q = 1%nat /\ q_flat q = negb force
    /\ exact_to q = Ok (degree N)
    /\ forall phi, is_poly 1 N phi -> exists v : R, is_RInt (fun x => phi [x]) (-1) 1 v /\ q_call q (fun x => Ok (phi x)) = Ok v.
Proof.
  intros HN. unfold clenshaw_curtis, cc_nodes_weights. destruct (Z.ltb_spec (Z.of_nat N) 1); [lia|]. destruct (Z.eqb_spec (Z.of_nat N) 1) as [E|E].
  - assert (N = 1%nat) as -> by lia. cbn [bind fst snd]. eexists. split; [reflexivity|]. cbn [q_nodes q_weights q_dim q_flat length map]. do 4 (split; [reflexivity|]). split; [reflexivity|].
    intros phi Hp. set (xs := fun i : nat => match i with O => -1 | _ => 1 end). set (ws := fun _ : nat => 1).
    apply (list_rule_exact xs ws 2 1 (negb force) (Some (NFin (inject_Z (Z.of_nat 1)))) phi); [|easy].
    intros p Hp1. cbn [rsum]. unfold ws, xs. destruct p as [|[|p]]; [|..|lia].
    + rewrite !cheb_0. unfold cheb_int. cbn [Nat.even]. change (INR 0) with 0. field.
    + rewrite !cheb_1. unfold cheb_int. cbn [Nat.even]. field.
  - assert (H2 : (2 <= N)%nat) by lia. rewrite Nat2Z.id. cbv zeta. rewrite cc_vector_spec, cc_g0_spec by easy.
    replace (map (fun p => fst p + snd p) (combine (map (cc_v N) (seq 0 N)) (map (cc_g N) (seq 0 N)))) with (map (cc_u N) (seq 0 N)).
    2:{ generalize (seq 0 N). intros l. induction l as [|j l IH]; [reflexivity|]. cbn [map combine fst snd]. now rewrite IH. }
    rewrite ifft_symm by (try apply cc_u_symm; lia). rewrite (checked_zero (idft N (cc_u N))). cbn [bind fst snd].
    assert (WE : map (idft N (cc_u N)) (seq 0 N) ++ firstn 1 (map (idft N (cc_u N)) (seq 0 N)) = map (idft N (cc_u N)) (seq 0 (N + 1))).
    { rewrite Nat.add_1_r, seq_S, map_app. f_equal. destruct N as [|N]; [lia|]. cbn [seq map firstn Nat.add]. f_equal. pose proof (idft_sym (S N) (cc_u (S N)) 0 ltac:(lia) ltac:(lia)) as H0. rewrite Nat.sub_0_r in H0. now rewrite H0. }
    rewrite WE. eexists. split; [reflexivity|]. cbn [q_nodes q_weights q_dim q_flat]. rewrite !map_length, !seq_length. do 4 (split; [reflexivity|]). split; [reflexivity|].
    intros phi Hp. apply (list_rule_exact (fun k => cos (INR k * PI / INR N)) (idft N (cc_u N)) (N + 1) N); [|easy].
    intros p Hp1. now apply (cc_rule_cheb N p H2).
Qed.
(** Fejer's first rule: N nodes (the roots of the N-th Chebyshev polynomial), exact up to degree N - 1. *)
Theorem C39_fejer1 (N : nat) force : (1 <= N)%nat ->
  exists q, fejer (Z.of_nat N) 1 force = Ok q
    /\ length (q_nodes q) = N /\ length (q_weights q) = N /\ q_dim q = 1%nat /\ q_flat q = negb force
    /\ exact_to q = Err AttributeError
    /\ (forall c, In c (q_nodes q) -> exists x, c = [x] /\ cheb N x = 0)
    /\ forall phi, is_poly 1 (N - 1) phi -> exists v : R, is_RInt (fun x => phi [x]) (-1) 1 v /\ q_call q (fun x => Ok (phi x)) = Ok v.
Proof.
  intros HN. assert (P : 0 < INR N) by (apply lt_0_INR; lia). unfold fejer. cbn [Z.eqb Pos.eqb]. unfold fejer1_nodes_weights. destruct (Z.ltb_spec (Z.of_nat N) 1); [lia|].
  rewrite Nat2Z.id. cbv zeta. pose proof (f1_vector N HN) as F. cbv zeta in F. rewrite F. rewrite (checked_zero (f1_w N)). cbn [bind fst snd].
  eexists. split; [reflexivity|]. cbn [q_nodes q_weights q_dim q_flat]. rewrite !map_length, !seq_length. do 4 (split; [reflexivity|]). split; [reflexivity|]. split.
  - intros c Hc. apply in_map_iff in Hc. destruct Hc as (x & <- & Hx). apply in_map_iff in Hx. destruct Hx as (k & <- & _). eexists. split; [reflexivity|]. rewrite cheb_cos.
    replace (INR N * ((INR k + 1 / 2) * PI / INR N)) with (INR k * PI + PI / 2) by (field; lra). rewrite cos_plus, cos_PI2, sin_PI2, sin_kPI. ring.
  - intros phi Hp. apply (list_rule_exact (fun k => cos ((INR k + 1 / 2) * PI / INR N)) (f1_w N) N (N - 1)); [|easy]. intros p Hp1. now apply (f1_rule_cheb N p HN).
Qed.
(** Fejer's second rule: N - 1 nodes, exact up to degree N - 2. *)
Theorem C39_fejer2 (N : nat) force : (2 <= N)%nat ->
  exists q, fejer (Z.of_nat N) 2 force = Ok q
    /\ length (q_nodes q) = (N - 1)%nat /\ length (q_weights q) = (N - 1)%nat /\ q_dim q = 1%nat /\ q_flat q = negb force
    /\ exact_to q = Err AttributeError
    /\ forall phi, is_poly 1 (N - 2) phi -> exists v : R, is_RInt (fun x => phi [x]) (-1) 1 v /\ q_call q (fun x => Ok (phi x)) = Ok v.
Proof.
  intros HN. unfold fejer. cbn [Z.eqb Pos.eqb]. unfold fejer2_nodes_weights. destruct (Z.ltb_spec (Z.of_nat N) 2); [lia|].
  rewrite Nat2Z.id. cbv zeta. rewrite cc_vector_spec by easy. rewrite ifft_symm by (try apply cc_v_symm; lia).
  assert (SQ : seq 1 (N - 1) = map Datatypes.S (seq 0 (N - 1))) by (symmetry; apply seq_shift).
  replace (tl (map (fun k => (idft N (cc_v N) k, 0)) (seq 0 N))) with (map (fun k => (idft N (cc_v N) (Datatypes.S k), 0)) (seq 0 (N - 1))).
  2:{ destruct N as [|N']; [lia|]. cbn [seq map tl]. replace (Datatypes.S N' - 1)%nat with N' in * by lia. now rewrite SQ, map_map. }
  rewrite (checked_zero (fun k => idft N (cc_v N) (Datatypes.S k))). cbn [bind fst snd]. rewrite SQ, (map_map Datatypes.S).
  eexists. split; [reflexivity|]. cbn [q_nodes q_weights q_dim q_flat]. rewrite !map_length, !seq_length. do 4 (split; [reflexivity|]). split; [reflexivity|].
  intros phi Hp. apply (list_rule_exact (fun k => cos (INR (Datatypes.S k) * PI / INR N)) (fun k => idft N (cc_v N) (Datatypes.S k)) (N - 1) (N - 2)); [|easy]. intros p Hp1. now apply (f2_rule_cheb N p HN).
Qed.
(** Orders that are too small and unknown kinds are refused. *)
Theorem C39_refused N kind force :
  ((N < 1)%Z -> clenshaw_curtis N force = Err ValueError)
  /\ ((N < 1)%Z -> fejer N 1 force = Err ValueError)
  /\ ((N < 2)%Z -> fejer N 2 force = Err ValueError)
  /\ ((kind <> 1)%Z -> (kind <> 2)%Z -> fejer N kind force = Err ValueError).
Proof.
  split; [|split; [|split]].
  - intros H. unfold clenshaw_curtis, cc_nodes_weights. destruct (Z.ltb_spec N 1); [reflexivity|lia].
  - intros H. unfold fejer, fejer1_nodes_weights. cbn [Z.eqb Pos.eqb]. destruct (Z.ltb_spec N 1); [reflexivity|lia].
  - intros H. unfold fejer, fejer2_nodes_weights. cbn [Z.eqb Pos.eqb]. destruct (Z.ltb_spec N 2); [reflexivity|lia].
  - intros H1 H2. unfold fejer. destruct (Z.eqb_spec kind 1); [easy|]. destruct (Z.eqb_spec kind 2); [easy|]. reflexivity.
Qed.
(** The nodes descend from 1 to -1 except for N = 1, where they ascend. *)
Theorem C39_node_order (N : nat) force q : (1 <= N)%nat -> clenshaw_curtis (Z.of_nat N) force = Ok q ->
  hd [] (q_nodes q) = [if (N =? 1)%nat then -1 else 1] /\ last (q_nodes q) [] = [if (N =? 1)%nat then 1 else -1].
Proof.
  intros HN E. unfold clenshaw_curtis, cc_nodes_weights in E. destruct (Z.ltb_spec (Z.of_nat N) 1); [lia|]. destruct (Z.eqb_spec (Z.of_nat N) 1) as [E1|E1].
  - assert (N = 1%nat) as -> by lia. cbn [bind fst snd] in E. match goal with H : Ok ?x = Ok q |- _ => assert (q = x) as -> by congruence end. split; reflexivity.
  - assert (N <> 1%nat) by lia. destruct (Nat.eqb_spec N 1); [easy|]. rewrite Nat2Z.id in E. cbv zeta in E. destruct (checked_real _) as [wr|e] in E; [|discriminate]. cbn [bind fst snd] in E.
    match goal with H : Ok ?x = Ok q |- _ => assert (q = x) as -> by congruence end. cbn [q_nodes]. assert (P : 0 < INR N) by (apply lt_0_INR; lia). rewrite Nat.add_1_r. split.
    + cbn [seq map hd]. change (INR 0) with 0. replace (0 * PI / INR N) with 0 by (field; lra). now rewrite cos_0.
    + rewrite seq_S, !map_app. cbn [map Nat.add]. rewrite last_last. replace (INR N * PI / INR N) with PI by (field; lra). now rewrite cos_PI.
Qed.

(** ** Concrete cases *)
(** Simpson's rule. *)
Example C39_simpson_ex : exists q, clenshaw_curtis 2 true = Ok q /\ q_weights q = [1 / 3; 4 / 3; 1 / 3].
Proof.
  unfold clenshaw_curtis, cc_nodes_weights. cbn [Z.ltb Z.compare Pos.compare Pos.compare_cont Z.eqb Pos.eqb]. cbv zeta. change (Z.to_nat 2) with 2%nat. rewrite cc_vector_spec, cc_g0_spec by lia.
  replace (map (fun p => fst p + snd p) (combine (map (cc_v 2) (seq 0 2)) (map (cc_g 2) (seq 0 2)))) with (map (cc_u 2) (seq 0 2)) by reflexivity.
  rewrite ifft_symm by (try apply cc_u_symm; lia). rewrite (checked_zero (idft 2 (cc_u 2))). cbn [bind fst snd]. eexists. split; [reflexivity|]. cbn [q_weights seq map firstn app].
  assert (U0 : cc_u 2 0 = 5 / 3) by (unfold cc_u, cc_v, cc_g, cc_b; cbn; field). assert (U1 : cc_u 2 1 = -1) by (unfold cc_u, cc_v, cc_g, cc_b; cbn; field).
  assert (W0 : idft 2 (cc_u 2) 0 = 1 / 3) by (rewrite idft_0 by lia; cbn [rsum]; rewrite U0, U1; change (INR 2) with 2; field).
  assert (W1 : idft 2 (cc_u 2) 1 = 4 / 3).
  { unfold idft. cbn [rsum]. rewrite U0, U1. change (INR 0) with 0. change (INR 1) with 1. change (INR 2) with 2. replace (2 * PI * 0 * 1 / 2) with 0 by field. replace (2 * PI * 1 * 1 / 2) with PI by field. rewrite cos_0, cos_PI. field. }
  now rewrite W0, W1.
Qed.
Example C39_poly_ex : is_poly 1 3 (fun c => 2 * nth 0 c 0 ^ 3 - 1).
Proof. apply (poly1_is_poly 3 (fun x => 2 * x ^ 3 - 1)). apply poly1_minus; [apply poly1_scal, poly1_pow|apply poly1_const]. Qed.

Print Assumptions C39_clenshaw_curtis.
Print Assumptions C39_fejer1.
Print Assumptions C39_fejer2.
Print Assumptions C39_refused.
Print Assumptions C39_node_order.
