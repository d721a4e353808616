(** * C63, C64: the Gauss rule embedded in a Kronrod rule *)
From Coquelicot Require Import Coquelicot.
From Coq Require Import List Arith Bool ZArith QArith Reals Lra Lia Permutation Sorted.
From Verif Require Import Py RSum ModelNd ModelShapes ModelNodes ModelModes ModelQuad ModelGauss ModelKronrod.
From Verif Require Import ProofPoly1 ProofMonomial ProofGauss ProofGaussExist ProofGauss2 ProofKronrod ProofQuadgk PropsKronrod PropsQuadgk ProofEig ProofGK ProofGK2 ProofInf ProofInf2 PropsInf PropsGK ProofLaurie ProofLaurie2 ProofLaurieQ.
Import ListNotations.
Local Open Scope R_scope.

Lemma seq_add_map : forall m a b, seq (a + b) m = map (fun i => (i + b)%nat) (seq a m).
Proof. induction m as [|m IH]; intros a b; cbn [seq map]; [reflexivity|]. f_equal. exact (IH (S a) b). Qed.
Lemma mirror_seq (f g : nat -> R) p c : (forall i, (i < p)%nat -> f (p + c + (p - 1 - i))%nat = g i) ->
  rev (map g (seq 0 p)) = map f (seq (p + c) p).
Proof.
  intros H. apply nth_ext with 0 0; [now rewrite rev_length, !map_length, !seq_length|]. rewrite rev_length, map_length, seq_length. intros i Hi.
  rewrite rev_nth by (rewrite map_length, seq_length; lia). rewrite map_length, seq_length.
  rewrite (nth_indep _ 0 (g 0%nat)) by (rewrite map_length, seq_length; lia). rewrite map_nth, seq_nth by lia.
  rewrite (nth_indep (map f _) 0 (f 0%nat)) by (rewrite map_length, seq_length; lia). rewrite map_nth, seq_nth by lia.
  rewrite <- H by lia. f_equal. lia.
Qed.
(** What the assembled rule consists of *)
Lemma assembled n (lam theta wk wg : nat -> R) : (1 <= n)%nat ->
  (forall i, (i < n)%nat -> lam (2 * i + 1)%nat = theta i) -> (forall i, (i < n)%nat -> theta (n - 1 - i)%nat = - theta i) ->
  (forall i, (i <= 2 * n)%nat -> lam (2 * n - i)%nat = - lam i) -> (forall i, (i < n)%nat -> wg (n - 1 - i)%nat = wg i) ->
  let k := assemble_kronrod n (map lam (seq 0 (n + 1)), map wk (seq 0 (n + 1)), map wg (seq 0 ((n + 1) / 2))) in
  q_nodes (kr_gauss k) = map (fun i => [theta i]) (seq 0 n) /\ q_weights (kr_gauss k) = map wg (seq 0 n)
  /\ kr_nodes k = map (fun i => lam (2 * i)%nat) (seq 0 (n + 1)) /\ q_exact (kr_gauss k) = Some (degree (2 * n - 1)) /\ q_flat (kr_gauss k) = true.
Proof.
  intros Hn HG ST SL SW.
  assert (NX : forall i, (i < n + 1)%nat -> nth i (map lam (seq 0 (n + 1))) 0 = lam i) by (intros; now rewrite nth_map_seq).
  destruct (Nat.even n) eqn:EV.
  - apply Nat.even_spec in EV. destruct EV as [p EV].
    assert (M2 : (n mod 2 = 0)%nat) by (rewrite EV; replace (2 * p)%nat with (p * 2)%nat by lia; now rewrite Nat.mod_mul by lia).
    assert (H2 : ((n + 1) / 2 = p)%nat) by (rewrite EV; replace (2 * p + 1)%nat with (1 + p * 2)%nat by lia; rewrite Nat.div_add by lia; reflexivity).
    destruct (evens_even p (map lam (seq 0 (n + 1)))) as [X1 X2]; [rewrite map_length, seq_length; lia|].
    unfold assemble_kronrod. rewrite M2, H2. cbn [Nat.eqb kr_gauss kr_nodes q_nodes q_weights q_exact q_flat]. rewrite X1, X2, removelast_map_seq.
    assert (G1 : map (fun i => nth (2 * i + 1) (map lam (seq 0 (n + 1))) 0) (seq 0 p) = map theta (seq 0 p)).
    { apply map_ext_in. intros i Hi. apply in_seq in Hi. rewrite NX by lia. apply HG. lia. }
    assert (G2 : map (fun i => nth (2 * i) (map lam (seq 0 (n + 1))) 0) (seq 0 p) = map (fun i => lam (2 * i)%nat) (seq 0 p)).
    { apply map_ext_in. intros i Hi. apply in_seq in Hi. now rewrite NX by lia. }
    rewrite G1, G2. split; [|split; [|split; [|split; reflexivity]]].
    + rewrite <- map_map with (f := theta) (g := fun t => [t]). apply f_equal. rewrite EV. replace (2 * p)%nat with (p + p)%nat by lia. rewrite seq_app, map_app. apply f_equal.
      rewrite map_rev, map_map. replace (0 + p)%nat with (p + 0)%nat by lia. apply mirror_seq. intros i Hi. rewrite <- ST by lia. f_equal. lia.
    + rewrite EV. replace (2 * p)%nat with (p + p)%nat by lia. rewrite seq_app, map_app. apply f_equal. replace (0 + p)%nat with (p + 0)%nat by lia. apply mirror_seq.
      intros i Hi. rewrite <- SW by lia. f_equal. lia.
    + replace (n + 1)%nat with (p + (1 + p))%nat at 1 by lia. rewrite seq_app, map_app. apply f_equal. rewrite seq_app, map_app. cbn [seq map app]. apply f_equal2.
      * pose proof (SL n ltac:(lia)) as Z. replace (2 * n - n)%nat with n in Z by lia. replace (2 * (0 + p))%nat with n by lia. lra.
      * rewrite map_rev, map_map. replace (0 + p + 1)%nat with (p + 1)%nat by lia. apply (mirror_seq (fun i => lam (2 * i)%nat)). intros i Hi. rewrite <- SL by lia. f_equal. lia.
  - assert (OD : Nat.Odd n) by (apply Nat.odd_spec; unfold Nat.odd; now rewrite EV). destruct OD as [p OD].
    assert (M2 : (n mod 2 = 1)%nat) by (rewrite OD; replace (2 * p + 1)%nat with (1 + p * 2)%nat by lia; now rewrite Nat.mod_add by lia).
    assert (H2 : ((n + 1) / 2 = S p)%nat) by (rewrite OD; replace (2 * p + 1 + 1)%nat with (S p * 2)%nat by lia; now rewrite Nat.div_mul by lia).
    destruct (evens_odd p (map lam (seq 0 (n + 1)))) as [X1 X2]; [rewrite map_length, seq_length; lia|].
    unfold assemble_kronrod. rewrite M2, H2. cbn [Nat.eqb kr_gauss kr_nodes q_nodes q_weights q_exact q_flat]. rewrite X1, X2, !removelast_map_seq, last_map_seq.
    assert (G1 : map (fun i => nth (2 * i + 1) (map lam (seq 0 (n + 1))) 0) (seq 0 p) = map theta (seq 0 p)).
    { apply map_ext_in. intros i Hi. apply in_seq in Hi. rewrite NX by lia. apply HG. lia. }
    assert (G2 : map (fun i => nth (2 * i) (map lam (seq 0 (n + 1))) 0) (seq 0 (S p)) = map (fun i => lam (2 * i)%nat) (seq 0 (S p))).
    { apply map_ext_in. intros i Hi. apply in_seq in Hi. now rewrite NX by lia. }
    rewrite G1, G2. split; [|split; [|split; [|split; reflexivity]]].
    + rewrite <- map_map with (f := theta) (g := fun t => [t]). apply f_equal. rewrite OD. replace (2 * p + 1)%nat with (p + (1 + p))%nat by lia. rewrite seq_app, map_app. apply f_equal.
      rewrite seq_app, map_app. cbn [seq map app]. apply f_equal2.
      * pose proof (ST p ltac:(lia)) as Z. replace (n - 1 - p)%nat with p in Z by lia. cbn [Nat.add]. lra.
      * rewrite map_rev, map_map. replace (0 + p + 1)%nat with (p + 1)%nat by lia. apply mirror_seq. intros i Hi. rewrite <- ST by lia. f_equal. lia.
    + rewrite OD. replace (2 * p + 1)%nat with (p + (1 + p))%nat by lia. rewrite seq_app, map_app. apply f_equal. rewrite seq_app, map_app. cbn [seq map app]. apply f_equal.
      replace (0 + p + 1)%nat with (p + 1)%nat by lia. apply mirror_seq. intros i Hi. rewrite <- SW by lia. f_equal. lia.
    + replace (n + 1)%nat with (S p + S p)%nat by lia. rewrite seq_app, map_app. apply f_equal. rewrite map_rev, map_map. replace (0 + S p)%nat with (S p + 0)%nat by lia.
      apply (mirror_seq (fun i => lam (2 * i)%nat)). intros i Hi. rewrite <- SL by lia. f_equal. lia.
Qed.
(** Everything about the two rules in one place *)
Lemma kronrod_parts eigvalsh n : (1 <= n)%nat -> laurie_positive n -> eig_exact eigvalsh (kronrod_b n) (2 * n + 1) ->
  exists k lam theta U, make_kronrod_quadrature eigvalsh n = Ok k
    /\ eigdec n (tri legendre_b (fun _ => 0)) theta U /\ (forall i j, (i < j < n)%nat -> theta i < theta j)
    /\ (forall i j, (i < j < S (2 * n))%nat -> lam i < lam j) /\ (forall i, (i < n)%nat -> lam (2 * i + 1)%nat = theta i)
    /\ q_nodes (kr_gauss k) = map (fun i => [theta i]) (seq 0 n)
    /\ q_weights (kr_gauss k) = map (fun i => 2 * eigvec1 legendre_b (theta i) n 0 ^ 2) (seq 0 n)
    /\ kr_nodes k = map (fun i => lam (2 * i)%nat) (seq 0 (n + 1)) /\ q_exact (kr_gauss k) = Some (degree (2 * n - 1)) /\ q_flat (kr_gauss k) = true.
Proof.
  intros Hn HL HX. pose proof (kronrod_b_pos n Hn HL) as HP. replace (2 * n + 1)%nat with (S (2 * n)) in HX by lia.
  destruct (eignewt_exact eigvalsh (kronrod_b n) (2 * n) (n + 1) HP HX ltac:(lia)) as (lam & V & D & SI & EX).
  destruct (tri_eig_exists legendre_b (n - 1) (fun k _ => legendre_b_pos k)) as (theta & U & D2 & SG). replace (S (n - 1)) with n in D2, SG by lia.
  pose proof (interlace n lam V theta U Hn HP D SI D2 SG) as IL. pose proof (theta_sym n theta U Hn D2 SG) as TS.
  set (wg := fun i => 2 * eigvec1 legendre_b (theta i) n 0 ^ 2).
  assert (SW : forall i, (i < n)%nat -> wg (n - 1 - i)%nat = wg i). { intros i Hi. unfold wg. rewrite TS by easy. rewrite !eigvec1_vp, !vp_0 by lia. now rewrite vnorm_sym. }
  exists (assemble_kronrod n (map lam (seq 0 (n + 1)), map (fun i => 2 * eigvec1 (kronrod_b n) (lam i) (2 * n + 1) 0 ^ 2) (seq 0 (n + 1)), map wg (seq 0 ((n + 1) / 2)))), lam, theta, U.
  split; [|split; [easy|]; split; [easy|]; split; [easy|]; split; [easy|]; apply (assembled n lam theta); auto].
  - unfold make_kronrod_quadrature, kronrod. destruct (Nat.ltb_spec n 1); [lia|]. cbv zeta. replace (2 * n + 1)%nat with (S (2 * n)) by lia. rewrite EX. cbn [bind]. apply f_equal. apply f_equal. apply f_equal2; [apply f_equal|].
    + apply map_ext_in. intros i Hi. apply in_seq in Hi. now rewrite nth_map_seq by lia.
    + unfold odd_range. rewrite map_map. apply map_ext_in. intros i Hi. apply in_seq in Hi.
      pose proof (Nat.div_mod (n + 1) 2 ltac:(lia)). pose proof (Nat.mod_upper_bound (n + 1) 2 ltac:(lia)). rewrite nth_map_seq by lia. rewrite IL by lia. reflexivity.
  - intros i Hi. apply (lam_sym (kronrod_b n) (2 * n) lam V HP D SI). lia.
Qed.

(** ** C63.  The embedded rule is an n-point rule on the open interval with positive
    weights, and it has the degree of exactness that it advertises (that is: it is the
    Gauss rule). *)
Theorem C63_embedded eigvalsh n : (1 <= n)%nat -> laurie_positive n -> eig_exact eigvalsh (kronrod_b n) (2 * n + 1) ->
  exists k x w, make_kronrod_quadrature eigvalsh n = Ok k
    /\ q_nodes (kr_gauss k) = map (fun t => [t]) x /\ q_weights (kr_gauss k) = w /\ length x = n /\ length w = n
    /\ StronglySorted Rlt x /\ (forall y, In y x -> -1 < y < 1) /\ (forall c, In c w -> 0 < c)
    /\ exact_to (kr_gauss k) = Ok (degree (2 * n - 1))
    /\ forall f, poly1 (2 * n - 1) f -> exists v, q_call (kr_gauss k) (fun p => Ok (f (nth 0 p 0))) = Ok v /\ is_RInt f (-1) 1 v.
Proof.
  intros Hn HL HX. destruct (kronrod_parts eigvalsh n Hn HL HX) as (k & lam & theta & U & EK & D2 & SG & SI & IL & QN & QW & KN & QE & QF).
  exists k, (map theta (seq 0 n)), (map (fun i => 2 * eigvec1 legendre_b (theta i) n 0 ^ 2) (seq 0 n)).
  split; [easy|]. split; [now rewrite map_map|]. split; [easy|]. split; [now rewrite map_length, seq_length|]. split; [now rewrite map_length, seq_length|].
  assert (D3 : eigdec (S (n - 1)) (tri legendre_b (fun _ => 0)) theta U) by (now replace (S (n - 1)) with n by lia).
  split; [|split; [|split; [|split]]].
  - assert (SQ : forall m st, (forall i j, (st <= i < j)%nat -> (j < st + m)%nat -> theta i < theta j) -> StronglySorted Rlt (map theta (seq st m))).
    { induction m as [|m IH]; intros st H1; cbn [seq map]; constructor; [apply IH; intros; apply H1; lia|]. apply Forall_forall. intros y Hy. apply in_map_iff in Hy. destruct Hy as (j & <- & Hj). apply in_seq in Hj. apply H1; lia. }
    apply SQ. intros. apply SG. lia.
  - intros y Hy. apply in_map_iff in Hy. destruct Hy as (i & <- & Hi). apply in_seq in Hi. apply (gauss_inside (n - 1) theta U D3). lia.
  - intros c Hc. apply in_map_iff in Hc. destruct Hc as (i & <- & _). apply Rmult_lt_0_compat; [lra|apply eigvec1_pos].
  - unfold exact_to. now rewrite QE.
  - intros f Hf. exists (rsum (fun i => 2 * eigvec1 legendre_b (theta i) n 0 ^ 2 * f (theta i)) n). split.
    + unfold q_call. rewrite QN, QW. rewrite (mapM_total (fun p0 : list R => f (nth 0 p0 0))). cbn [bind]. rewrite !map_map. cbn [nth]. rewrite !map_length, Nat.eqb_refl. cbn [negb].
      f_equal. rewrite dotR_map_seq. apply rsum_ext. intros i _. cbn [Nat.add]. ring.
    + pose proof (gauss_sum_exact (n - 1) theta U f D3) as G. replace (S (n - 1)) with n in G by lia. apply G. now replace (2 * (n - 1) + 1)%nat with (2 * n - 1)%nat by lia.
Qed.
Print Assumptions C63_embedded.
(** The nodes of the Kronrod rule proper separate those of the Gauss rule: the two
    families of nodes alternate. *)
Theorem C63_interlaced eigvalsh n : (1 <= n)%nat -> laurie_positive n -> eig_exact eigvalsh (kronrod_b n) (2 * n + 1) ->
  exists k, make_kronrod_quadrature eigvalsh n = Ok k /\ length (kr_nodes k) = (n + 1)%nat /\ length (q_nodes (kr_gauss k)) = n
    /\ forall i, (i < n)%nat -> nth i (kr_nodes k) 0 < nth 0 (nth i (q_nodes (kr_gauss k)) []) 0 < nth (i + 1) (kr_nodes k) 0.
Proof.
  intros Hn HL HX. destruct (kronrod_parts eigvalsh n Hn HL HX) as (k & lam & theta & U & EK & D2 & SG & SI & IL & QN & QW & KN & QE & QF).
  exists k. split; [easy|]. rewrite KN, QN. split; [now rewrite map_length, seq_length|]. split; [now rewrite map_length, seq_length|].
  intros i Hi. rewrite !nth_map_seq by lia. rewrite (nth_indep _ [] [theta 0%nat]) by (rewrite map_length, seq_length; lia).
  rewrite (map_nth (fun i => [theta i]) (seq 0 n) 0%nat i), seq_nth by lia. cbn [nth Nat.add]. rewrite <- IL by lia. split; apply SI; lia.
Qed.
Print Assumptions C63_interlaced.
(** Nodes and weights are those that [gauss] computes. *)
Theorem C63_same_as_gauss eigvalsh n x w : (1 <= n)%nat -> laurie_positive n -> eig_exact eigvalsh (kronrod_b n) (2 * n + 1) -> eig_exact eigvalsh legendre_b n ->
  gauss eigvalsh n = Ok (x, w) ->
  exists k, make_kronrod_quadrature eigvalsh n = Ok k /\ q_nodes (kr_gauss k) = map (fun t => [t]) x /\ q_weights (kr_gauss k) = w.
Proof.
  intros Hn HL HX HG EG. destruct (kronrod_parts eigvalsh n Hn HL HX) as (k & lam & theta & U & EK & D2 & SG & SI & IL & QN & QW & KN & QE & QF).
  exists k. split; [easy|]. pose proof (fun j (_ : (j < n - 1)%nat) => legendre_b_pos j) as Hb. replace n with (S (n - 1)) in HG by lia.
  destruct (eignewt_exact eigvalsh legendre_b (n - 1) (S (n - 1)) Hb HG (le_n _)) as (lg & V & D & SL & EX). replace (S (n - 1)) with n in D, SL, EX by lia.
  assert (TH : forall i, (i < n)%nat -> lg i = theta i).
  { assert (D3 : eigdec (S (n - 1)) (tri legendre_b (fun _ => 0)) theta U) by (now replace (S (n - 1)) with n by lia).
    assert (D4 : eigdec (S (n - 1)) (tri legendre_b (fun _ => 0)) lg V) by (now replace (S (n - 1)) with n by lia).
    assert (C : forall i, (i < n)%nat -> exists j, (j < n)%nat /\ theta j = lg i).
    { intros i Hi. destruct (root_is_lam legendre_b (n - 1) Hb theta U D3 (lg i)) as (j & J1 & J2); [apply (lam_root legendre_b (n - 1) Hb lg V D4); lia|]. exists j. split; [lia|easy]. }
    destruct (ProofGauss3.finite_choice_nat _ _ C) as (f & Hf). intros i Hi. destruct (Hf i Hi) as [F1 F2]. rewrite <- F2. f_equal.
    apply (ProofGauss3.incr_id n f); [intros; now apply Hf| |easy]. intros a c H. destruct (Hf a ltac:(lia)) as [A1 A2], (Hf c ltac:(lia)) as [C1 C2].
    destruct (lt_eq_lt_dec (f a) (f c)) as [[L|L]|L]; [easy| |].
    - rewrite L in A2. pose proof (SL a c ltac:(lia)). lra.
    - pose proof (SL a c ltac:(lia)). pose proof (SG (f c) (f a) ltac:(lia)). lra. }
  unfold gauss in EG. destruct (Nat.ltb_spec n 1); [lia|]. cbv zeta in EG. rewrite EX in EG. injection EG as <- <-. rewrite QN, QW, map_map. split.
  - apply map_ext_in. intros i Hi. apply in_seq in Hi. now rewrite TH by lia.
  - apply map_ext_in. intros i Hi. apply in_seq in Hi. rewrite nth_map_seq by lia. now rewrite TH by lia.
Qed.
Print Assumptions C63_same_as_gauss.

(** ** C64.  On polynomials of degree up to 2 n - 1 the error estimate of quadgk is zero, so
    the given intervals are not refined: one evaluation of the rule for each of them. *)
Theorem C64_no_refinement eigvalsh hq f ms abstol reltol maxevals n :
  eigvalsh_sized eigvalsh -> heap_ok seg_lt hq -> (1 <= n)%nat -> laurie_positive n -> eig_exact eigvalsh (kronrod_b n) (2 * n + 1) ->
  (2 <= length ms)%nat -> poly1 (2 * n - 1) f -> 0 <= abstol ->
  exists calls I, quadgk eigvalsh hq (fun t => Ok (f t)) (map Fin ms) abstol reltol maxevals n = (calls, Ok (I, 0))
    /\ is_RInt f (hd 0 ms) (last ms 0) I /\ length calls = ((2 * n + 1) * (length ms - 1))%nat.
Proof.
  intros HS HQ Hn HL HX L2 Hf HA.
  assert (E0 : forall mx, exists calls I, quadgk eigvalsh hq (fun t => Ok (f t)) (map Fin ms) abstol reltol mx n = (calls, Ok (I, 0)) /\ is_RInt f (hd 0 ms) (last ms 0) I).
  { intros mx. destruct (C42_quadgk eigvalsh hq f ms abstol reltol mx n HS HQ Hn L2) as (k & m & vals & errs & calls & I & E & K1 & K2 & K3 & K4 & K5 & K6 & K7 & _).
    destruct (C58_quadgk_exact eigvalsh hq f (2 * n - 1) ms abstol reltol mx n HS HQ Hn HL HX L2 Hf ltac:(lia)) as (calls' & I' & E' & Q1 & Q2).
    exists calls, I. assert (I' = I) as -> by congruence. split; [|easy]. rewrite K2. apply f_equal. apply f_equal. apply f_equal.
    rewrite K7. clear K7 K6 K4 K2 Q1 Q2.
    destruct (C57_kronrod_exact eigvalsh n Hn HL HX) as (k' & Ek & KE & _ & _ & _ & EX). assert (k' = k) as -> by congruence.
    destruct (C63_embedded eigvalsh n Hn HL HX) as (k' & x & w & Ek' & _ & _ & _ & _ & _ & _ & _ & _ & GX). assert (k' = k) as -> by congruence.
    induction K5 as [|[a b] e ps es HP H IH]; cbn [fold_right]; [reflexivity|]. rewrite IH, Rplus_0_r. destruct HP as (KI & GI & C1 & C2 & ->). cbn [fst snd] in *.
    pose proof (poly1_affine _ f ((a + b) / 2) ((b - a) / 2) Hf) as HA2.
    destruct (EX _ (2 * n - 1)%nat HA2 ltac:(lia)) as (v & V1 & V2). destruct (GX _ HA2) as (v' & V3 & V4).
    assert (v = KI) as -> by congruence. assert (v' = GI) as -> by congruence.
    assert (KI = GI) as -> by (rewrite <- (is_RInt_unique _ _ _ _ V2); exact (is_RInt_unique _ _ _ _ V4)).
    replace ((b - a) / 2 * (GI - GI)) with 0 by ring. apply Rabs_R0. }
  destruct (E0 0%nat) as (calls0 & I0 & Q0 & R0). destruct (E0 maxevals) as (calls & I & Q & RI). exists calls, I. split; [easy|]. split; [easy|].
  (* without any budget the loop is not entered; the state it starts from has error 0 *)
  unfold quadgk in Q, Q0. rewrite map_length in Q, Q0. destruct (Nat.ltb_spec (length ms) 2); [lia|].
  assert (FF : forall f' ab re mx, do_quadgk eigvalsh hq f' (map Fin ms) n ab re mx = quadgk_finite eigvalsh hq f' (map Fin ms) n ab re mx).
  { intros. unfold do_quadgk. destruct ms as [|s ms]; [cbn in L2; lia|]. cbn [map hd]. change (Fin s :: map Fin ms) with (map Fin (s :: ms)).
    replace (last (map Fin (s :: ms)) PInf) with (Fin (last (s :: ms) 0)); [reflexivity|]. clear. revert s. induction ms as [|s' ms IH]; intros s; [reflexivity|]. cbn [map last]. exact (IH s'). }
  rewrite FF in Q, Q0. unfold quadgk_finite in Q, Q0. destruct (kronrod eigvalsh n) as [[[x w] gw]|] eqn:EK; [|discriminate]. cbn [tlift tbind] in Q, Q0.
  destruct (proj2 (C41_size eigvalsh n HS) Hn) as (data & ED & HR). rewrite EK in ED. injection ED as <-.
  destruct (initial_heap_total hq f n x w gw ms [] Hn HR) as (l0 & h & EH). rewrite EH in Q, Q0. cbn [tbind] in Q, Q0.
  assert (G0 : forall ab re, go_on ab re 0 (initial_state n h) = false) by (intros; unfold go_on; cbn [Nat.ltb Nat.leb]; apply andb_false_r).
  cbn [adapt] in Q0. rewrite G0 in Q0. cbn [tret tbind gk_heap initial_state] in Q0. injection Q0 as E1 E2 E3.
  assert (G1 : forall mx, go_on abstol reltol mx (initial_state n h) = false).
  { intros. unfold go_on. cbn [gk_err initial_state]. rewrite E3. replace (Rlt_bool abstol 0) with false; [reflexivity|]. symmetry. apply Rlt_bool_false. lra. }
  assert (AD : forall fu, adapt hq (feval (fun t => Ok (f t))) n x w gw abstol reltol maxevals fu (initial_state n h) = tret (initial_state n h)) by (intros fu; destruct fu; cbn [adapt]; now rewrite G1).
  rewrite AD in Q. cbn [tret tbind] in Q. injection Q as F1 F2 F3. rewrite <- F1.
  destruct HQ as (inv & I1 & I2 & I3). destruct HR as (Lx & Lw & Lg).
  destruct (initial_heap_inv hq (feval (fun t => Ok (f t))) n x w gw (feval_one_eval _) Hn Lx Lg inv I1 I2 ms [] l0 h I1 EH) as (_ & LL & _).
  rewrite !app_nil_r, LL. apply f_equal. clear. induction ms as [|a ms IHm]; [reflexivity|]. destruct ms as [|b ms]; [reflexivity|]. change (panels (a :: b :: ms)) with ((a, b) :: panels (b :: ms)). cbn [length] in *. rewrite IHm. lia.
Qed.
Print Assumptions C64_no_refinement.

(** ** The hypotheses are met by the rule that quadgk uses by default (n = 7, 15 nodes) and
    by the rule with n = 10 (21 nodes) *)
Example C63_default_ex : laurie_positive 7.
Proof. unfold laurie_positive. apply laurie_posb_spec. vm_compute. reflexivity. Qed.
Example C63_ten_ex : laurie_positive 10.
Proof. unfold laurie_positive. apply laurie_posb_spec. vm_compute. reflexivity. Qed.
Example C63_default_eig_ex : exists eigvalsh, eigvalsh_sized eigvalsh /\ eig_exact eigvalsh (kronrod_b 7) (2 * 7 + 1).
Proof. apply (C56_eigvalsh_exists (kronrod_b 7) 14). apply (kronrod_b_pos 7); [lia|apply C63_default_ex]. Qed.
(** The rule for n = 1: the Gauss node 0 between the nodes of the other family *)
Example C63_one_ex eigvalsh : eig_exact eigvalsh (kronrod_b 1) 3 -> exists k, make_kronrod_quadrature eigvalsh 1 = Ok k
  /\ nth 0 (kr_nodes k) 0 < nth 0 (nth 0 (q_nodes (kr_gauss k)) []) 0 < nth 1 (kr_nodes k) 0.
Proof.
  intros H. destruct (C63_interlaced eigvalsh 1 (le_n _) C57_one_ex H) as (k & E & _ & _ & I). exists k. split; [easy|]. exact (I 0%nat ltac:(lia)).
Qed.
Example C64_poly_ex : poly1 (2 * 7 - 1) (fun x => x ^ 13 - 3 * x ^ 2).
Proof. apply poly1_minus; [apply poly1_pow|]. apply poly1_scal, (poly1_weaken 2); [lia|apply poly1_pow]. Qed.
