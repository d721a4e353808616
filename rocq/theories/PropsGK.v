(** * C56-C58: gauss, Kronrod rules and quadgk are exact on polynomials *)
From Coquelicot Require Import Coquelicot.
From Coq Require Import List Arith Bool ZArith QArith Reals Lra Lia Permutation Sorted.
From Verif Require Import Py RSum ModelNd ModelShapes ModelNodes ModelModes ModelQuad ModelGauss ModelKronrod.
From Verif Require Import ProofPoly1 ProofMonomial ProofGauss ProofGaussExist ProofGauss2 ProofKronrod ProofQuadgk PropsKronrod PropsQuadgk ProofEig ProofGK ProofGK2 ProofInf ProofInf2 PropsInf.
Import ListNotations.
Local Open Scope R_scope.

(** ** Every tridiagonal matrix with positive off-diagonal has the decomposition that
    [eig_exact] asks for *)
Lemma tri_eig_exists b N : (forall k, (k < N)%nat -> 0 < b k) ->
  exists lam V, eigdec (S N) (tri b (fun _ => 0)) lam V /\ forall i j, (i < j < S N)%nat -> lam i < lam j.
Proof.
  intros Hb. set (a := al b N). pose proof (al_pos b N Hb) as Ha. fold a in Ha.
  assert (BD : exists B, 1 <= B /\ forall k, a k <= B).
  { assert (Q : forall m, exists B, 1 <= B /\ forall k, (k < m)%nat -> a k <= B).
    { induction m as [|m (B & B1 & B2)]; [exists 1; split; [lra|intros; lia]|]. exists (Rmax B (a m)). pose proof (Rmax_l B (a m)). pose proof (Rmax_r B (a m)). split; [lra|].
      intros k Hk. destruct (Nat.eq_dec k m) as [->|]; [easy|]. specialize (B2 k ltac:(lia)). lra. }
    destruct (Q N) as (B & B1 & B2). exists B. split; [easy|]. intros k. destruct (le_lt_dec N k); [|now apply B2]. unfold a, al. destruct (Nat.ltb_spec k N); [lia|easy]. }
  destruct BD as (B & B1 & B2). set (M := 2 * B). assert (HM : 0 < M) by (unfold M; lra).
  set (p := fun n x => pp b N n (M * x)). set (a' := fun k => a k / M). set (z0 := fun _ : nat => 0).
  assert (Ha' : forall k, 0 < a' k) by (intros; apply Rdiv_lt_0_compat; auto).
  assert (R0 : forall x, x * p 0%nat x = a' 0%nat * p 1%nat x + z0 0%nat * p 0%nat x).
  { intros x. unfold p, a', z0. pose proof (pp_rec0 b N Hb (M * x)) as H. fold a in H. apply Rmult_eq_reg_l with M; [|lra].
    transitivity (M * x * pp b N 0 (M * x)); [ring|]. rewrite H. unfold a. field. lra. }
  assert (RS : forall n x, x * p (S n) x = a' (S n) * p (S (S n)) x + z0 (S n) * p (S n) x + a' n * p n x).
  { intros n x. unfold p, a', z0. pose proof (pp_recS b N Hb n (M * x)) as H. fold a in H. apply Rmult_eq_reg_l with M; [|lra].
    transitivity (M * x * pp b N (S n) (M * x)); [ring|]. rewrite H. unfold a. field. lra. }
  assert (VPM : forall n, 0 < vp a n M /\ vp a n M <= vp a (S n) M).
  { induction n as [|n [I1 I2]].
    - rewrite vp_0, vp_1. split; [lra|]. pose proof (Ha 0%nat). pose proof (B2 0%nat). apply Rmult_le_reg_r with (a 0%nat); [easy|]. unfold Rdiv. rewrite Rmult_assoc, Rinv_l by lra. unfold M. lra.
    - split; [lra|]. rewrite vp_SS. pose proof (Ha (S n)). pose proof (B2 (S n)). pose proof (B2 n). pose proof (Ha n). apply Rmult_le_reg_r with (a (S n)); [easy|]. unfold Rdiv. rewrite Rmult_assoc, Rinv_l by lra. unfold M in *. nra. }
  assert (E1 : forall n, 0 < p n 1).
  { intros n. unfold p, pp. apply Rmult_lt_0_compat; [apply c0_pos|]. rewrite Rmult_1_r. apply VPM. }
  assert (E2 : forall n, 0 < (-1) ^ n * p n (-1)).
  { intros n. unfold p, pp. replace (M * -1) with (- M) by ring. fold a. rewrite vp_sym. pose proof (pow_m1_sq n) as Q. set (e := (-1) ^ n) in *.
    replace (e * (c0 * (e * vp a n M))) with (e * e * (c0 * vp a n M)) by ring. rewrite Q, Rmult_1_l. apply Rmult_lt_0_compat; [apply c0_pos|apply VPM]. }
  destruct (eigdec_exists p a' z0 c0 Ha' c0_ne (fun x => pp_0 b N (M * x)) R0 RS E1 E2 N) as (lam & V & [D1 D2] & S1).
  exists (fun i => M * lam i), V. split.
  - split; [|easy]. intros i j Hi Hj. rewrite Rmult_assoc, <- D1, <- rsum_scal by easy. apply rsum_ext. intros k Hk. unfold z0 at 1. rewrite (tri_al b N i k Hi Hk). fold a. unfold tri, a', z0.
    destruct (k =? i)%nat; [ring|]. destruct (k =? S i)%nat; [field; lra|]. destruct (i =? S k)%nat; [field; lra|ring].
  - intros i j Hij. apply Rmult_lt_compat_l; [easy|]. now apply S1.
Qed.
Theorem C56_eigvalsh_exists b N : (forall k, (k < N)%nat -> 0 < b k) -> exists eigvalsh, eigvalsh_sized eigvalsh /\ eig_exact eigvalsh b (S N).
Proof.
  intros Hb. destruct (tri_eig_exists b N Hb) as (lam & V & D & _). exists (fun m _ => map lam (seq 0 m)). split.
  - intros m A. now rewrite map_length, seq_length.
  - unfold eig_exact. split; [now rewrite map_length, seq_length|]. exists V. destruct D as [D1 D2]. split; [|easy]. intros i j Hi Hj.
    rewrite nth_map_seq by easy. rewrite <- D1 by easy. apply rsum_ext. intros k Hk. now rewrite eig_matrix_tri.
Qed.

(** ** gauss *)
Theorem C56_gauss_exact eigvalsh n : (1 <= n)%nat -> eig_exact eigvalsh legendre_b n ->
  exists x w, gauss eigvalsh n = Ok (x, w) /\ length x = n /\ length w = n
    /\ StronglySorted Rlt x /\ (forall y, In y x -> -1 < y < 1) /\ (forall c, In c w -> 0 < c)
    /\ forall f, poly1 (2 * n - 1) f -> is_RInt f (-1) 1 (dotR (map f x) w).
Proof.
  intros Hn HX. destruct n as [|N]; [lia|]. pose proof (fun k (_ : (k < N)%nat) => legendre_b_pos k) as Hb.
  destruct (eignewt_exact eigvalsh legendre_b N (S N) Hb HX (le_n _)) as (lam & V & D & SI & EX).
  unfold gauss. destruct (Nat.ltb_spec (S N) 1); [lia|]. rewrite EX. cbv zeta.
  exists (map lam (seq 0 (S N))), (map (fun i => 2 * eigvec1 legendre_b (nth i (map lam (seq 0 (S N))) 0) (S N) 0 ^ 2) (seq 0 (S N))).
  split; [reflexivity|]. split; [now rewrite map_length, seq_length|]. split; [now rewrite map_length, seq_length|].
  set (p := fun n x => c0 * vp legendre_b n x). set (z0 := fun _ : nat => 0).
  assert (P0 : forall x, p 0%nat x = c0) by (intros; unfold p; rewrite vp_0; ring).
  assert (P1 : forall x, x * p 0%nat x = legendre_b 0 * p 1%nat x + z0 0%nat * p 0%nat x).
  { intros x. unfold p, z0. rewrite vp_0, vp_1. field. apply Rgt_not_eq, legendre_b_pos. }
  assert (P2 : forall n x, x * p (S n) x = legendre_b (S n) * p (S (S n)) x + z0 (S n) * p (S n) x + legendre_b n * p n x).
  { intros m x. unfold p, z0. rewrite vp_SS. field. apply Rgt_not_eq, legendre_b_pos. }
  assert (W : forall i, (i < S N)%nat -> 2 * eigvec1 legendre_b (nth i (map lam (seq 0 (S N))) 0) (S N) 0 ^ 2 = gw c0 V i).
  { intros i Hi. rewrite nth_map_seq by easy. exact (lam_weight legendre_b N Hb lam V D i Hi). }
  split; [|split; [|split]].
  - assert (SQ : forall m st, (forall i j, (st <= i < j)%nat -> (j < st + m)%nat -> lam i < lam j) -> StronglySorted Rlt (map lam (seq st m))).
    { induction m as [|m IH]; intros st H1; cbn [seq map]; constructor; [apply IH; intros; apply H1; lia|]. apply Forall_forall. intros y Hy. apply in_map_iff in Hy. destruct Hy as (j & <- & Hj). apply in_seq in Hj. apply H1; lia. }
    apply SQ. intros. apply SI. lia.
  - intros y Hy. apply in_map_iff in Hy. destruct Hy as (i & <- & Hi). apply in_seq in Hi.
    refine (nodes_inside p legendre_b z0 c0 legendre_b_pos c0_ne P0 P1 P2 _ _ N lam V D i ltac:(lia)).
    + intros m. unfold p. rewrite <- jp_vp. apply jp_end; lra.
    + intros m. unfold p. rewrite <- jp_vp. apply jp_endm; lra.
  - intros c Hc. apply in_map_iff in Hc. destruct Hc as (i & <- & Hi). apply Rmult_lt_0_compat; [lra|]. apply eigvec1_pos.
  - intros f (c & Hc). rewrite map_map, dotR_map_seq.
    pose proof (gauss_poly p legendre_b z0 c0 legendre_b_pos c0_ne P0 P1 P2 N lam V D Int1 Int1_ext Int1_plus Int1_scal leg_ortho c (S (2 * N + 1)) (le_n _)) as G.
    unfold Int1 in G. evar_last; [eapply is_RInt_ext; [|exact G]|].
    + intros x _. cbv beta. symmetry. replace (2 * S N - 1)%nat with (2 * N + 1)%nat in Hc by lia. apply Hc.
    + unfold grule. apply rsum_ext. intros i Hi. cbn [Nat.add]. rewrite W by easy. replace (2 * S N - 1)%nat with (2 * N + 1)%nat in Hc by lia. rewrite Hc. ring.
Qed.
Theorem C56_gauss_refused eigvalsh : gauss eigvalsh 0 = Err ValueError.
Proof. reflexivity. Qed.

(** ** Kronrod rules.  The coefficients that Laurie's algorithm produces beyond the
    Legendre ones have to be positive (a Kronrod rule need not exist otherwise). *)
Definition laurie_positive (n : nat) : Prop := forall j, ((3 * n + 1) / 2 < j <= 2 * n)%nat -> 0 < laurie n j.
Lemma kronrod_b_pos n : (1 <= n)%nat -> laurie_positive n -> forall k, (k < 2 * n)%nat -> 0 < kronrod_b n k.
Proof.
  intros Hn HL k Hk. destruct (le_lt_dec (KK n) k) as [H|H].
  - rewrite kronrod_b_spec by easy. apply sqrt_lt_R0, HL. unfold KK in H. lia.
  - rewrite kronrod_b_legendre by easy. apply legendre_b_pos.
Qed.
Theorem C57_kronrod_exact eigvalsh n : (1 <= n)%nat -> laurie_positive n -> eig_exact eigvalsh (kronrod_b n) (2 * n + 1) ->
  exists k, make_kronrod_quadrature eigvalsh n = Ok k /\ kr_exact k = (3 * n + 1)%nat
    /\ length (kr_nodes k) = (n + 1)%nat /\ length (q_nodes (kr_gauss k)) = n
    /\ (forall c, In c (kr_weights k ++ kr_gauss_weights k) -> 0 < c)
    /\ forall f d, poly1 d f -> (d <= kr_exact k)%nat -> exists v, kr_call k (fun y => Ok (f y)) = Ok v /\ is_RInt f (-1) 1 v.
Proof.
  intros Hn HL HX. replace (2 * n + 1)%nat with (S (2 * n)) in HX by lia.
  destruct (eignewt_exact eigvalsh (kronrod_b n) (2 * n) (n + 1) (kronrod_b_pos n Hn HL) HX ltac:(lia)) as (lam & V & D & SI & EX).
  unfold make_kronrod_quadrature. destruct (kronrod eigvalsh n) as [[[x w] gw]|e] eqn:EK; [|unfold kronrod in EK; destruct (Nat.ltb_spec n 1); [lia|discriminate]].
  cbn [bind]. exists (assemble_kronrod n (x, w, gw)). split; [reflexivity|].
  assert (XW : x = map lam (seq 0 (n + 1)) /\ w = map (fun i => 2 * eigvec1 (kronrod_b n) (lam i) (S (2 * n)) 0 ^ 2) (seq 0 (n + 1)) /\ length gw = ((n + 1) / 2)%nat).
  { unfold kronrod in EK. destruct (Nat.ltb_spec n 1); [lia|]. cbv zeta in EK. replace (2 * n + 1)%nat with (S (2 * n)) in EK by lia. rewrite EX in EK. injection EK as <- <- <-. split; [reflexivity|]. split; [|unfold odd_range; now rewrite !map_length, seq_length].
    apply map_ext_in. intros i Hi. apply in_seq in Hi. rewrite nth_map_seq by lia. reflexivity. }
  destruct XW as (Ex & Ew & Lg). assert (Lx : length x = (n + 1)%nat) by (rewrite Ex, map_length, seq_length; lia). assert (Lw : length w = (n + 1)%nat) by (rewrite Ew, map_length, seq_length; lia).
  assert (HR : rule_size n (x, w, gw)) by (repeat split; easy).
  destruct (C41_panel n (x, w, gw) (fun y => y) (-1) 1 Hn HR) as (_ & _ & _ & _ & _ & _ & _ & _ & _ & _ & _ & _ & _ & LG & LK).
  split; [unfold assemble_kronrod; destruct (n mod 2 =? 1)%nat; reflexivity|]. split; [easy|]. split; [now rewrite map_length in LG|]. split.
  - destruct (C43_weights_positive eigvalsh n x w gw EK) as [WP _]. intros c Hc.
    destruct (kron_weights_pos n x w gw Lw WP) as [K1 K2]. apply in_app_or in Hc. destruct Hc as [Hc|Hc]; [now apply K1|now apply K2].
  - intros f d Hf Hd. pose proof (KK_bounds n) as KB.
    assert (HD : (d <= 2 * KK n + 1)%nat) by (unfold assemble_kronrod in Hd; destruct (n mod 2 =? 1)%nat; cbn [kr_exact] in Hd; lia).
    exists (full_rule n lam f). split; [|exact (full_rule_poly n lam V Hn (kronrod_b_pos n Hn HL) D SI f d HD Hf)].
    rewrite kr_call_sum by easy. f_equal. rewrite (full_rule_sym n lam V Hn (kronrod_b_pos n Hn HL) D SI).
    assert (NX : forall i, (i < n + 1)%nat -> nth i x 0 = lam i) by (intros; rewrite Ex; now rewrite nth_map_seq).
    assert (NW : forall i, (i < n + 1)%nat -> nth i w 0 = 2 * eigvec1 (kronrod_b n) (lam i) (S (2 * n)) 0 ^ 2) by (intros; rewrite Ew; now rewrite nth_map_seq).
    rewrite NW by lia. f_equal. apply rsum_ext. intros i Hi. now rewrite NX, NW by lia.
Qed.

(** ** quadgk *)
Lemma poly1_affine d f c r : poly1 d f -> poly1 d (fun y => f (c + r * y)).
Proof.
  intros Hf. apply (poly1_shift d f c) in Hf. destruct Hf as (cs & Hc). exists (fun k => cs k * r ^ k). intros x.
  replace (c + r * x) with (r * x + c) by ring. rewrite (Hc (r * x)). apply rsum_ext. intros k _. rewrite Rpow_mult_distr. ring.
Qed.
(** On finite break points the result is the integral from the first to the last, for
    every polynomial of degree up to 3 n + 1, whatever the tolerances and however many
    bisections were made. *)
Theorem C58_quadgk_exact eigvalsh hq f d ms abstol reltol maxevals n :
  eigvalsh_sized eigvalsh -> heap_ok seg_lt hq -> (1 <= n)%nat -> laurie_positive n -> eig_exact eigvalsh (kronrod_b n) (2 * n + 1) ->
  (2 <= length ms)%nat -> poly1 d f -> (d <= 3 * n + 1)%nat ->
  exists calls I E, quadgk eigvalsh hq (fun t => Ok (f t)) (map Fin ms) abstol reltol maxevals n = (calls, Ok (I, E))
    /\ is_RInt f (hd 0 ms) (last ms 0) I.
Proof.
  intros HS HQ Hn HL HX L2 Hf Hd.
  destruct (C42_quadgk eigvalsh hq f ms abstol reltol maxevals n HS HQ Hn L2) as (k & m & vals & errs & calls & I & E & K1 & K2 & K3 & K4 & K5 & K6 & _).
  exists calls, I, E. split; [easy|].
  destruct (C57_kronrod_exact eigvalsh n Hn HL HX) as (k' & Ek & KE & _ & _ & _ & EX). assert (k' = k) as -> by congruence.
  destruct (bisected_ends _ _ K3) as (B1 & B2 & B3 & _). rewrite <- B1, <- B2, K6.
  assert (LM : (2 <= length m)%nat) by lia. clear B1 B2 B3 K2 K3 K5 K6 E errs calls.
  assert (P : Forall2 (fun p v => is_RInt f (fst p) (snd p) v) (panels m) vals).
  { induction K4 as [|[a b] v ps vs HP H IH]; constructor; [|easy]. clear IH H. cbn [fst snd] in *. destruct HP as (KI & C1 & ->).
    destruct (EX _ d (poly1_affine d f ((a + b) / 2) ((b - a) / 2) Hf) ltac:(lia)) as (v & C2 & C3). assert (v = KI) as -> by congruence.
    assert (CI : ex_RInt f a b) by (apply (@ex_RInt_continuous R_CompleteNormedModule); intros z _; now apply (poly1_cont d)).
    destruct CI as [L CI]. assert (J : is_RInt (fun y => f ((a + b) / 2 + (b - a) / 2 * y)) (-1) 1 KI) by easy.
    destruct (Req_dec a b) as [->|NE].
    - evar_last; [apply (@is_RInt_point R_NormedModule)|]. change (0 = (b - b) / 2 * KI). field.
    - evar_last; [exact CI|]. pose proof (@is_RInt_comp_lin R_NormedModule f ((b - a) / 2) ((a + b) / 2) (-1) 1 L) as CL.
      replace ((b - a) / 2 * -1 + (a + b) / 2) with a in CL by field. replace ((b - a) / 2 * 1 + (a + b) / 2) with b in CL by field. specialize (CL CI).
      assert (J2 : is_RInt (fun y => scal ((b - a) / 2) (f ((b - a) / 2 * y + (a + b) / 2))) (-1) 1 ((b - a) / 2 * KI)).
      { apply (@is_RInt_scal R_NormedModule (fun y => f ((b - a) / 2 * y + (a + b) / 2))). eapply is_RInt_ext; [|exact J]. intros y _. cbv beta. f_equal. ring. }
      exact (eq_trans (eq_sym (is_RInt_unique _ _ _ _ CL)) (is_RInt_unique _ _ _ _ J2)). }
  clear -P LM. revert vals P. induction m as [|a m IH]; intros vals P; [cbn in LM; lia|].
  destruct m as [|b m]; [cbn in LM; lia|]. change (panels (a :: b :: m)) with ((a, b) :: panels (b :: m)) in P. inversion P as [|p v ps vs H1 H2]; subst. cbn [fold_right hd fst snd] in *.
  destruct m as [|c m].
  - inversion H2; subst. cbn [fold_right last]. now rewrite Rplus_0_r.
  - specialize (IH ltac:(cbn [length]; lia) _ H2). change (last (a :: b :: c :: m) 0) with (last (b :: c :: m) 0). exact (@is_RInt_Chasles R_NormedModule _ _ _ _ _ _ H1 IH).
Qed.

(** ** Hypotheses are met: n = 1 (the rule with 3 nodes), n = 2 *)
Example C57_one_ex : laurie_positive 1.
Proof. intros j Hj. cbn in Hj. lia. Qed.
Example C57_two_ex : laurie 2 4 = 1 / 3 /\ laurie_positive 2.
Proof.
  assert (E : laurie 2 4 = 1 / 3).
  { cbv -[Rplus Rmult Rminus Rdiv Ropp Rinv IZR Req_EM_T Rle_dec Rlt_dec]. field. }
  split; [easy|]. intros j Hj. cbn in Hj. assert (j = 4%nat) as -> by lia. rewrite E. lra.
Qed.
Example C57_hyp_ex : exists eigvalsh, eigvalsh_sized eigvalsh /\ eig_exact eigvalsh (kronrod_b 2) (2 * 2 + 1).
Proof. apply (C56_eigvalsh_exists (kronrod_b 2) 4). apply (kronrod_b_pos 2); [lia|apply C57_two_ex]. Qed.
Example C56_hyp_ex n : exists eigvalsh, eigvalsh_sized eigvalsh /\ eig_exact eigvalsh legendre_b (S n).
Proof. apply C56_eigvalsh_exists. intros. apply legendre_b_pos. Qed.
Example C58_poly_ex : poly1 (3 * 2 + 1) (fun x => x ^ 7 - 3 * x ^ 2).
Proof. apply poly1_minus; [apply poly1_pow|]. apply poly1_scal, (poly1_weaken 2); [lia|apply poly1_pow]. Qed.

(** ** Reversed limits with ties (C43)
    Without the hypothesis [no_ties] of [C43_reverse] the sign need not change: with
    two panels of equal error and a limit on the evaluations, the panel that is refined
    depends on the order of the break points. *)
Definition two_spikes (y : R) : R := if Req_EM_T y (-1/2) then -1 else if Req_EM_T y (1/2) then 1 else 0.
Lemma two_spikes_0 y : y <> -1/2 -> y <> 1/2 -> two_spikes y = 0.
Proof. intros H1 H2. unfold two_spikes. destruct (Req_EM_T y (-1/2)); [lra|]. now destruct (Req_EM_T y (1/2)). Qed.
Lemma evalrule_three phi a b y w0 w1 g : evalrule (feval (fun t => Ok (phi t))) (Fin a) (Fin b) [y; 0] [w0; w1] [g]
  = ([a + 1 / 2 * (b - a); a + (1 + y) * (1 / 2 * (b - a)); a + (1 - y) * (1 / 2 * (b - a))],
     Ok (mkSeg a b ((phi (a + 1 / 2 * (b - a)) * w1 + (phi (a + (1 + y) * (1 / 2 * (b - a))) + phi (a + (1 - y) * (1 / 2 * (b - a)))) * w0) * (1 / 2 * (b - a)))
           (Rabs ((phi (a + 1 / 2 * (b - a)) * w1 + (phi (a + (1 + y) * (1 / 2 * (b - a))) + phi (a + (1 - y) * (1 / 2 * (b - a)))) * w0) * (1 / 2 * (b - a))
                  - phi (a + 1 / 2 * (b - a)) * g * (1 / 2 * (b - a)))))).
Proof.
  unfold evalrule, evalrule_fin. cbn [length Nat.modulo Nat.divmod fst snd Nat.sub seq tfold tbind tret feval Nat.eqb app last nth]. cbv beta zeta iota. rewrite !Rplus_0_l. reflexivity.
Qed.
Lemma sq_inv_sqrt v : 0 < v -> 2 * (1 / sqrt v) ^ 2 = 2 / v.
Proof. intros H. replace v with (sqrt v * sqrt v) at 2 by (apply sqrt_sqrt; lra). field. apply Rgt_not_eq, sqrt_lt_R0, H. Qed.
(** The rule with three nodes. *)
Example C57_three_nodes eigvalsh : eig_exact eigvalsh (kronrod_b 1) 3 ->
  kronrod eigvalsh 1 = Ok ([- sqrt (3 / 5); 0], [5 / 9; 8 / 9], [2]).
Proof.
  intros HX. assert (HP := kronrod_b_pos 1 (le_n _) C57_one_ex).
  destruct (eignewt_exact eigvalsh (kronrod_b 1) 2 2 HP HX ltac:(lia)) as (lam & V & D & SI & EX).
  assert (B0 : kronrod_b 1 0 ^ 2 = 1 / 3).
  { rewrite kronrod_b_spec by lia. rewrite laurie_low by (cbn; lia). rewrite laurie_init_spec by (cbn; lia). rewrite pow2_sqrt; cbn [Nat.add INR]; [field|lra]. }
  assert (B1 : kronrod_b 1 1 ^ 2 = 4 / 15).
  { rewrite kronrod_b_spec by lia. rewrite laurie_low by (cbn; lia). rewrite laurie_init_spec by (cbn; lia). rewrite pow2_sqrt; cbn [Nat.add INR]; [field|lra]. }
  assert (P0 := HP 0%nat ltac:(lia)). assert (P1 := HP 1%nat ltac:(lia)).
  assert (L1 : lam 1%nat = 0) by exact (lam_mid 1 lam V (le_n _) HP D SI).
  assert (L0 : lam 0%nat = - sqrt (3 / 5)).
  { pose proof (lam_root (kronrod_b 1) 2 HP lam V D 0%nat ltac:(lia)) as H. rewrite !dpol_SS, dpol_1, dpol_0, B0, B1 in H.
    pose proof (SI 0%nat 1%nat ltac:(lia)) as H1. rewrite L1 in H1. assert (Q : lam 0%nat * lam 0%nat = 3 / 5).
    { apply Rmult_eq_reg_l with (lam 0%nat); [|lra]. lra. }
    replace (3 / 5) with ((- lam 0%nat) * (- lam 0%nat)) by lra. rewrite sqrt_square by lra. ring. }
  unfold kronrod. change (1 <? 1)%nat with false. cbv iota zeta. change (2 * 1 + 1)%nat with 3%nat. change (1 + 1)%nat with 2%nat. rewrite EX. cbn [seq map nth]. rewrite L0, L1.
  change (odd_range 1) with [1%nat]. cbn [map nth]. rewrite !eigvec1_vp, !vp_0 by lia.
  assert (VN : forall b m z, (1 <= m)%nat -> 0 < vnorm b m z) by (intros b m z H; pose proof (vnorm_ge1 b m z H); lra).
  rewrite !sq_inv_sqrt by (apply VN; lia).
  assert (S35 : sqrt (3 / 5) * sqrt (3 / 5) = 3 / 5) by (apply sqrt_sqrt; lra).
  assert (V1 : vnorm (kronrod_b 1) 3 (- sqrt (3 / 5)) = 18 / 5).
  { unfold vnorm. rewrite !rsum_S, vp_SS, vp_1, !vp_0. cbn [rsum]. set (b0 := kronrod_b 1 0) in *. set (b1 := kronrod_b 1 1) in *. set (s := sqrt (3 / 5)) in *.
    transitivity (1 + s * s / b0 ^ 2 + (s * s - b0 ^ 2) ^ 2 / (b0 ^ 2 * b1 ^ 2)); [unfold rsum; cbn [seq map fold_right]; field; lra|]. rewrite S35, B0, B1. field. }
  assert (V2 : vnorm (kronrod_b 1) 3 0 = 9 / 4).
  { unfold vnorm. rewrite !rsum_S, vp_SS, vp_1, !vp_0. set (b0 := kronrod_b 1 0) in *. set (b1 := kronrod_b 1 1) in *.
    transitivity (1 + b0 ^ 2 / b1 ^ 2); [unfold rsum; cbn [seq map fold_right]; field; lra|]. rewrite B0, B1. field. }
  assert (V3 : vnorm legendre_b 1 0 = 1) by (unfold vnorm; rewrite rsum_S, vp_0; unfold rsum; cbn [seq map fold_right]; ring).
  rewrite V1, V2, V3. replace (2 / (18 / 5)) with (5 / 9) by field. replace (2 / (9 / 4)) with (8 / 9) by field. replace (2 / 1) with 2 by field. reflexivity.
Qed.
Lemma Rlt_bool_refl v : Rlt_bool v v = false.
Proof. apply Rlt_bool_false. lra. Qed.
Theorem C43_reverse_ties_refuted : exists eigvalsh hq phi ms abstol reltol maxevals n calls calls' I I' E E',
  eigvalsh_sized eigvalsh /\ heap_ok seg_lt hq
  /\ quadgk eigvalsh hq (fun t => Ok (phi t)) (map Fin ms) abstol reltol maxevals n = (calls, Ok (I, E))
  /\ quadgk eigvalsh hq (fun t => Ok (phi t)) (map Fin (rev ms)) abstol reltol maxevals n = (calls', Ok (I', E'))
  /\ I' <> - I.
Proof.
  destruct (C56_eigvalsh_exists (kronrod_b 1) 2 (kronrod_b_pos 1 (le_n _) C57_one_ex)) as (eigvalsh & HS & HX).
  pose proof (C57_three_nodes eigvalsh HX) as K. set (y := - sqrt (3 / 5)) in K.
  assert (Y : -1 < y < 0).
  { unfold y. assert (0 < sqrt (3 / 5)) by (apply sqrt_lt_R0; lra). assert (sqrt (3 / 5) < 1) by (rewrite <- sqrt_1; apply sqrt_lt_1; lra). lra. }
  assert (EV : forall a b, evalrule (feval (fun t => Ok (two_spikes t))) (Fin a) (Fin b) [y; 0] [5 / 9; 8 / 9] [2]
     = ([a + 1 / 2 * (b - a); a + (1 + y) * (1 / 2 * (b - a)); a + (1 - y) * (1 / 2 * (b - a))],
     Ok (mkSeg a b ((two_spikes (a + 1 / 2 * (b - a)) * (8 / 9) + (two_spikes (a + (1 + y) * (1 / 2 * (b - a))) + two_spikes (a + (1 - y) * (1 / 2 * (b - a)))) * (5 / 9)) * (1 / 2 * (b - a)))
           (Rabs ((two_spikes (a + 1 / 2 * (b - a)) * (8 / 9) + (two_spikes (a + (1 + y) * (1 / 2 * (b - a))) + two_spikes (a + (1 - y) * (1 / 2 * (b - a)))) * (5 / 9)) * (1 / 2 * (b - a))
                  - two_spikes (a + 1 / 2 * (b - a)) * 2 * (1 / 2 * (b - a))))))) by (intros; apply evalrule_three).
  assert (SM : two_spikes (-1/2) = -1) by (unfold two_spikes; destruct (Req_EM_T (-1/2) (-1/2)); [easy|congruence]).
  assert (SP : two_spikes (1/2) = 1) by (unfold two_spikes; destruct (Req_EM_T (1/2) (-1/2)); [lra|]; destruct (Req_EM_T (1/2) (1/2)); [easy|congruence]).
  (* a panel and its contribution *)
  assert (PN : forall a b v, two_spikes ((a + b) / 2) = v -> (forall t, t = y \/ t = - y -> two_spikes ((a + b) / 2 + (b - a) / 2 * t) = 0) ->
     exists l, evalrule (feval (fun t => Ok (two_spikes t))) (Fin a) (Fin b) [y; 0] [5 / 9; 8 / 9] [2] = (l, Ok (mkSeg a b (4 / 9 * v * (b - a)) (Rabs (5 / 9 * v * (b - a)))))).
  { intros a b v H1 H2. rewrite EV. eexists. apply (f_equal2 pair); [reflexivity|]. 
    replace (a + 1 / 2 * (b - a)) with ((a + b) / 2) by field. replace (a + (1 + y) * (1 / 2 * (b - a))) with ((a + b) / 2 + (b - a) / 2 * y) by field. replace (a + (1 - y) * (1 / 2 * (b - a))) with ((a + b) / 2 + (b - a) / 2 * - y) by field.
    rewrite H1, !H2 by auto. f_equal. f_equal; [field|]. rewrite <- Rabs_Ropp. f_equal. field. }
  assert (Z : forall a b, (forall t, t = y \/ t = - y \/ t = 0 -> two_spikes ((a + b) / 2 + (b - a) / 2 * t) = 0) ->
     exists l, evalrule (feval (fun t => Ok (two_spikes t))) (Fin a) (Fin b) [y; 0] [5 / 9; 8 / 9] [2] = (l, Ok (mkSeg a b 0 0))).
  { intros a b H. destruct (PN a b 0) as (l & E); [|intros t [Ht|Ht]; apply H; auto|].
    - rewrite <- (H 0) by auto. f_equal. field.
    - exists l. rewrite E. do 3 f_equal; [ring|]. replace (5 / 9 * 0 * (b - a)) with 0 by ring. apply Rabs_R0. }
  assert (RUN : forall e, e = 1 \/ e = -1 -> exists calls E, quadgk eigvalsh list_heap (fun t => Ok (two_spikes t)) (map Fin [- e; 0; e]) 0 0 7 1 = (calls, Ok (- (4 / 9), E))).
  { intros e He. assert (ES : two_spikes (e / 2) = e /\ two_spikes (- e / 2) = - e).
    { destruct He as [-> | ->]; split; [easy|exact SM|replace (-1 / 2) with (-1/2) by field; exact SM|replace (- -1 / 2) with (1 / 2) by field; rewrite SP; ring]. }
    destruct ES as [E1 E2].
    destruct (PN (- e) 0 (- e)) as (l1 & A1).
    { rewrite <- E2 at 2. f_equal. field. }
    { intros t Ht. apply two_spikes_0; destruct He as [-> | ->], Ht as [-> | ->]; lra. }
    destruct (PN 0 e e) as (l2 & A2).
    { rewrite <- E1 at 2. f_equal. field. }
    { intros t Ht. apply two_spikes_0; destruct He as [-> | ->], Ht as [-> | ->]; lra. }
    destruct (Z 0 ((0 + e) * (1 / 2))) as (l3 & A3).
    { intros t Ht. apply two_spikes_0; destruct He as [-> | ->], Ht as [-> | [-> | ->]]; lra. }
    destruct (Z ((0 + e) * (1 / 2)) e) as (l4 & A4).
    { intros t Ht. apply two_spikes_0; destruct He as [-> | ->], Ht as [-> | [-> | ->]]; lra. }
    replace (4 / 9 * - e * (0 - - e)) with (- (4 / 9)) in A1 by (destruct He as [-> | ->]; field).
    replace (4 / 9 * e * (e - 0)) with (4 / 9) in A2 by (destruct He as [-> | ->]; field).
    replace (Rabs (5 / 9 * - e * (0 - - e))) with (5 / 9) in A1 by (destruct He as [-> | ->]; symmetry; (rewrite Rabs_left by lra; lra)).
    replace (Rabs (5 / 9 * e * (e - 0))) with (5 / 9) in A2 by (destruct He as [-> | ->]; symmetry; (rewrite Rabs_right by lra; lra)).
    rewrite quadgk_fin by (cbn; lia). unfold quadgk_finite. rewrite K. cbn [tlift tbind map initial_heap]. rewrite A1. cbn [tbind]. rewrite A2. cbn [tbind tret list_heap heappush].
    unfold initial_state. cbn [sum_by fold_left seg_int seg_err length Nat.mul Nat.add adapt]. unfold sum_by. cbn [fold_left seg_int seg_err].
    unfold go_on at 1. cbn [gk_err gk_int gk_evals]. rewrite !Rlt_bool_true by (rewrite ?Rmult_0_l; lra). cbn [Nat.ltb Nat.leb andb].
    unfold refine. cbn [list_heap heappop gk_heap pop_min]. unfold seg_lt at 1. cbn [seg_err]. rewrite Rlt_bool_refl. cbv zeta. cbn [seg_a seg_b].
    rewrite A3. cbn [tbind]. rewrite A4. cbn [tbind tret gk_evals]. 
    unfold go_on. cbn [gk_evals Nat.add Nat.ltb Nat.leb]. rewrite Bool.andb_false_r. cbn [tbind tret gk_heap list_heap heappush fold_left seg_int seg_err].
    eexists. eexists. apply (f_equal2 pair); [reflexivity|]. f_equal. apply (f_equal2 pair); [ring|reflexivity]. }
  destruct (RUN 1 (or_introl eq_refl)) as (c1 & E1 & R1). destruct (RUN (-1) (or_intror eq_refl)) as (c2 & E2 & R2).
  exists eigvalsh, list_heap, two_spikes, [- (1); 0; 1], 0, 0, 7%nat, 1%nat, c1, c2, (- (4 / 9)), (- (4 / 9)), E1, E2.
  split; [easy|]. split; [apply C42_heap_ex|]. split; [exact R1|]. split; [|lra].
  replace (rev [- (1); 0; 1]) with [- -1; 0; -1]; [exact R2|]. cbn [rev app]. replace (- -1) with 1 by ring. replace (-1) with (- (1)) at 1 by ring. reflexivity.
Qed.
Print Assumptions C56_eigvalsh_exists.
Print Assumptions C56_gauss_exact.
Print Assumptions C57_kronrod_exact.
Print Assumptions C58_quadgk_exact.
Print Assumptions C43_reverse_ties_refuted.
