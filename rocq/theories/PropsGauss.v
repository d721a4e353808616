(** * C37: Jacobi-Gauss rules *)
From Coquelicot Require Import Coquelicot.
From Coq Require Import List Arith Bool ZArith QArith Reals Lra Lia FinFun.
From Verif Require Import Py RSum PyToolsModel ModelNd ModelShapes ModelNodes ModelModes ModelQuad ModelGauss.
From Verif Require Import SpecPoly ProofJacobi ProofJacobi2 ProofJacobiOrtho ProofBetaReal ProofQuad ProofPoly1 ProofGauss ProofGaussExist ProofGauss2 ProofGauss3.
Import ListNotations.
Local Open Scope R_scope.

Lemma NoDup_map_inj_in {X Y} (f : X -> Y) l : (forall x y, In x l -> In y l -> f x = f y -> x = y) -> NoDup l -> NoDup (map f l).
Proof.
  intros H D. induction D as [|x l Hx D IH]; cbn [map]; [constructor|]. constructor.
  - intros K. apply in_map_iff in K. destruct K as (y & E & Hy). assert (y = x) by (apply H; [now right|now left|easy]). now subst.
  - apply IH. intros; apply H; [now right|now right|easy].
Qed.

(** Hypotheses used below.
    - [eigh_at eigh a b N] (ProofGauss3.v): applied to the matrix that the code assembles
      for (a, b, N), the eigenvalue routine returns lambda and V with
      T V = V diag(lambda) and V^T V = I.
    - [builtin be]: the backend is not given or "builtin".
    - [gauss_params a b]: a, b > -1 and either a = b = -1/2, or outside the code's
      1e-14 windows around a = b = -1/2 and a + b = -1. *)

(** Non-negative integer parameters, ordinary integral. *)
Theorem C37_exact (a b N : nat) eigh rj be force q phi :
  eigh_at eigh (INR a) (INR b) N -> builtin be ->
  jacobi_gauss eigh rj (INR a) (INR b) N be force = Ok q -> is_poly 1 (2 * N + 1) phi ->
  exists v : R, is_RInt (fun x => phi [x] * ((1 - x) ^ a * (1 + x) ^ b)) (-1) 1 v
    /\ q_call q (fun x => Ok (phi x)) = Ok v.
Proof.
  intros HE HB E Hp.
  pose proof (pos_INR a) as Pa. pose proof (pos_INR b) as Pb.
  assert (T1 : / 10 ^ 14 <= 1 / 2). { replace (1 / 2) with (/ 2) by field. apply Rinv_le_contravar; lra. }
  assert (HP : gauss_params (INR a) (INR b)).
  { split; [lra|]. split; [lra|]. right. split; [left|]; rewrite Rabs_right by lra; lra. }
  apply (gauss_exact eigh rj (INR a) (INR b) N be force HP (fun _ => HE) HB (IntN a b) (IntN_ext a b) (IntN_plus a b) (IntN_scal a b)) with (q := q); try easy.
  intros m n. eapply is_RInt_ext; [|apply (jacobi_orthonormal_nat a b m n)].
  intros x _. cbv beta. now rewrite !jacobi_jp by first [lra|apply jac_gamma0_pos; lra].
Qed.
(** Real parameters, improper integral. *)
Theorem C37_exact_real (a b : R) (N : nat) eigh rj be force q phi :
  gauss_params a b -> (a + b + 1 <> 0 -> eigh_at eigh a b N) -> builtin be ->
  jacobi_gauss eigh rj a b N be force = Ok q -> is_poly 1 (2 * N + 1) phi ->
  exists v : R, is_RInt_gen (fun x => phi [x] * (Rpower (1 - x) a * Rpower (1 + x) b)) (at_right (-1)) (at_left 1) v
    /\ q_call q (fun x => Ok (phi x)) = Ok v.
Proof.
  intros HP HE HB E Hp. pose proof HP as (Ha & Hb & _).
  apply (gauss_exact eigh rj a b N be force HP HE HB (fun f l => isG (fun x => f x * wr a b x) l)) with (q := q); try easy.
  - intros f g l Efg H. eapply isG_ext; [|exact H]. intros x _. cbv beta. now rewrite Efg.
  - intros f g l k H1 H2. eapply isG_ext; [|exact (isG_plus _ _ _ _ H1 H2)]. intros x _. cbv beta. ring.
  - intros c f l H1. eapply isG_ext; [|exact (isG_scal c _ _ H1)]. intros x _. cbv beta. ring.
  - intros m n. pose proof (jacobi_orthonormal_real a b m n Ha Hb (gauss_params_exact a b HP)) as O. eapply isG_ext; [|exact O].
    intros x _. cbv beta. now rewrite !jacobi_jp by first [easy|now apply jac_gamma0_pos].
Qed.
(** The rule is returned; it has N+1 distinct nodes in the open interval and N+1
    positive weights, and advertises 2N+1. *)
Theorem C37_rule (a b : R) (N : nat) eigh rj be force :
  gauss_params a b -> (a + b + 1 <> 0 -> eigh_at eigh a b N) -> builtin be ->
  exists q, jacobi_gauss eigh rj a b N be force = Ok q
    /\ length (q_nodes q) = (N + 1)%nat /\ NoDup (q_nodes q)
    /\ (forall p, In p (q_nodes q) -> exists x, p = [x] /\ -1 < x < 1)
    /\ length (q_weights q) = (N + 1)%nat /\ (forall w, In w (q_weights q) -> 0 < w)
    /\ exact_to q = Ok (degree (2 * N + 1)) /\ q_dim q = 1%nat /\ q_flat q = negb force.
Proof.
  intros HP HE HB. destruct (gauss_shape eigh rj a b N be force HP HE HB) as (lam & V & D & E).
  eexists. split; [exact E|]. destruct HP as (Ha & Hb & _). cbn [q_nodes q_weights q_dim q_flat exact_to q_exact].
  rewrite !map_length, seq_length. split; [lia|]. split.
  - rewrite map_map. apply  NoDup_map_inj_in; [|apply seq_NoDup].
    intros i j Hi Hj Eij. apply in_seq in Hi, Hj. injection Eij as Eij.
    apply (nodes_distinct (jp a b) (A a b) (bcoef a b) (kap a b 0) (fun n => A_pos a b Ha Hb n) (kap0_ne a b Ha Hb) (jp0 a b)
        (jp_rec0 a b Ha Hb) (jp_recS a b Ha Hb) N lam V D); try easy; lia.
  - split; [|split; [lia|split; [|easy]]].
    + intros p Hp. apply in_map_iff in Hp. destruct Hp as (x & <- & Hx). apply in_map_iff in Hx. destruct Hx as (i & <- & Hi). apply in_seq in Hi.
      exists (lam i). split; [easy|].
      apply (nodes_inside (jp a b) (A a b) (bcoef a b) (kap a b 0) (fun n => A_pos a b Ha Hb n) (kap0_ne a b Ha Hb) (jp0 a b)
        (jp_rec0 a b Ha Hb) (jp_recS a b Ha Hb) (fun n => jp_end a b Ha Hb n) (fun n => jp_endm a b n Ha Hb) N lam V D). lia.
    + intros w Hw. apply in_map_iff in Hw. destruct Hw as (i & <- & Hi). apply in_seq in Hi.
      apply (gw_pos (jp a b) (A a b) (bcoef a b) (kap a b 0) (fun n => A_pos a b Ha Hb n) (kap0_ne a b Ha Hb) (jp0 a b)
        (jp_rec0 a b Ha Hb) (jp_recS a b Ha Hb) N lam V D). lia.
Qed.
(** The rule does not depend on the eigendecomposition: with eigenvalues returned in
    ascending order (numpy's convention) any two give the same rule. *)
Definition ascending (eigh : eigh_t) (a b : R) (N : nat) : Prop :=
  forall i j, (i < j < S N)%nat -> fst (eigh (S N) (jg_matrix a b N)) i <= fst (eigh (S N) (jg_matrix a b N)) j.
Theorem C37_unique (a b : R) (N : nat) eigh eigh' rj rj' be be' force :
  gauss_params a b -> a + b + 1 <> 0 -> eigh_at eigh a b N -> ascending eigh a b N -> eigh_at eigh' a b N -> ascending eigh' a b N ->
  builtin be -> builtin be' ->
  jacobi_gauss eigh rj a b N be force = jacobi_gauss eigh' rj' a b N be' force.
Proof.
  intros (Ha & Hb & [[-> ->]|[NC E1]]) Hab HE S1 HE' S2 HB HB'; [lra|].
  assert (E : jg_compute eigh N a b = jg_compute eigh' N a b).
  { unfold eigh_at, ascending in *.
    destruct (eigh (S N) (jg_matrix a b N)) as [lam V] eqn:EE. destruct (eigh' (S N) (jg_matrix a b N)) as [lam' V'] eqn:EE'.
    cbn [fst snd] in *. rewrite (jg_compute_ok eigh N a b lam V), (jg_compute_ok eigh' N a b lam' V') by easy.
    assert (U := eigdec_unique a b N lam V lam' V' Ha Hb (tri_eigdec a b N lam V Ha Hb Hab HE) S1 (tri_eigdec a b N lam' V' Ha Hb Hab HE') S2).
    f_equal. f_equal; apply map_ext_in; intros i Hi; apply in_seq in Hi; apply U; lia. }
  unfold jacobi_gauss. destruct HB as [->| ->], HB' as [->| ->]; now rewrite E.
Qed.
(** Parameters and backends that are refused. *)
Theorem C37_refused eigh rj a b N be force :
  (builtin be -> Rabs (a + b + 1) < / 10 ^ 14 -> not_cheb a b -> jacobi_gauss eigh rj a b N be force = Err ValueError)
  /\ (be = Some OtherBackend -> jacobi_gauss eigh rj a b N be force = Err NotImplementedE)
  /\ (forall kind, kind <> 1%nat -> kind <> 2%nat -> chebyshev_gauss eigh rj N kind be force = Err ValueError).
Proof.
  split; [|split].
  - intros HB H NC. assert (E : jg_compute eigh N a b = Err ValueError); [|unfold jacobi_gauss; destruct HB as [->| ->]; now rewrite E].
    unfold jg_compute.
    assert (C : (Rlt_bool (Rabs (a + 1 / 2)) (/ 10 ^ 14) && Rlt_bool (Rabs (b + 1 / 2)) (/ 10 ^ 14))%bool = false).
    { destruct NC as [NC|NC]; rewrite (Rlt_bool_false _ _ NC); [reflexivity|apply andb_false_r]. }
    now rewrite C, Rlt_bool_true by easy.
  - intros ->. reflexivity.
  - intros [|[|[|k]]] H1 H2; try easy.
Qed.
(** The named special cases. *)
Theorem C37_special_cases eigh rj N be force :
  legendre_gauss eigh rj N be force = jacobi_gauss eigh rj 0 0 N be force
  /\ chebyshev_gauss eigh rj N 1 be force = jacobi_gauss eigh rj (- (1 / 2)) (- (1 / 2)) N be force
  /\ chebyshev_gauss eigh rj N 2 be force = jacobi_gauss eigh rj (1 / 2) (1 / 2) N be force
  /\ (forall a, gauss_gegenbauer eigh rj a N be force = jacobi_gauss eigh rj a a N be force)
  /\ gauss_params 0 0 /\ gauss_params (- (1 / 2)) (- (1 / 2)) /\ gauss_params (1 / 2) (1 / 2).
Proof.
  assert (T1 : / 10 ^ 14 <= 1 / 2). { replace (1 / 2) with (/ 2) by field. apply Rinv_le_contravar; lra. }
  repeat (split; [reflexivity|]). split; [|split].
  - split; [lra|]. split; [lra|]. right. split; [left|]; rewrite Rabs_right by lra; lra.
  - split; [lra|]. split; [lra|]. left. easy.
  - split; [lra|]. split; [lra|]. right. split; [left|]; rewrite Rabs_right by lra; lra.
Qed.
(** The hypothesis on the eigenvalue routine can be met for every N: the matrix has
    an orthonormal eigendecomposition with strictly increasing eigenvalues. *)
Theorem C37_decomposition_exists (a b : R) : -1 < a -> -1 < b -> a + b + 1 <> 0 ->
  forall N, exists eigh, eigh_at eigh a b N /\ ascending eigh a b N.
Proof.
  intros Ha Hb Hab N. destruct (jg_eigdec_exists a b N Ha Hb Hab) as (lam & V & D & S).
  exists (fun _ _ => (lam, V)). split; [exact D|]. intros i j Hij. cbn [fst]. left. now apply S.
Qed.
(** The Legendre rule with two nodes: +-1/sqrt 3 and unit weights. *)
Example C37_example : exists eigh, eigh_at eigh (INR 0) (INR 0) 1 /\ ascending eigh 0 0 1
  /\ fst (eigh 2%nat (jg_matrix 0 0 1)) 0%nat = - / sqrt 3 /\ fst (eigh 2%nat (jg_matrix 0 0 1)) 1%nat = / sqrt 3.
Proof.
  set (s := / sqrt 3). set (r := / sqrt 2).
  assert (S3 : 0 < sqrt 3) by (apply sqrt_lt_R0; lra). assert (S2 : 0 < sqrt 2) by (apply sqrt_lt_R0; lra).
  assert (rr2 : r * r = / 2). { unfold r. rewrite <- Rinv_mult by lra. rewrite sqrt_sqrt by lra. reflexivity. }
  exists (fun _ _ => (fun i => if (i =? 0)%nat then - s else s, fun n i => if (n =? 0)%nat then (if (i =? 0)%nat then - r else r) else r)).
  assert (B0 : bcoef 0 0 0 = 0) by (unfold bcoef; field). assert (B1 : bcoef 0 0 1 = 0) by (unfold bcoef, jac_bnew; cbv zeta; unfold Rdiv; ring).
  assert (A0 : A 0 0 0 = s).
  { unfold A, rr, rho. replace (2 / (0 + 0 + 2)) with 1 by field. replace ((0 + 1) * (0 + 1) / (0 + 0 + 3)) with (/ 3) by field.
    rewrite Rmult_1_l. unfold s. now rewrite <- sqrt_inv. }
  split; [|split; [|split]].
  - apply (eigdec_ext 2 (tri (A 0 0) (bcoef 0 0))).
    { intros i j Hi Hj. symmetry. apply jg_matrix_tri; first [cbn; lra|lia]. }
    split.
    + intros [|[|i]] [|[|j]] Hi Hj; try lia; cbn [rsum fst snd Nat.eqb]; unfold tri; cbn [Nat.eqb]; rewrite ?A0, ?B0, ?B1; ring.
    + intros [|[|i]] [|[|j]] Hi Hj; try lia; cbn [rsum fst snd Nat.eqb]; lra.
  - intros [|[|i]] [|[|j]] Hij; try lia. cbn [fst Nat.eqb]. assert (0 < s) by (unfold s; now apply Rinv_0_lt_compat). lra.
  - reflexivity.
  - reflexivity.
Qed.

Print Assumptions C37_exact.
Print Assumptions C37_exact_real.
Print Assumptions C37_rule.
Print Assumptions C37_unique.
Print Assumptions C37_refused.
Print Assumptions C37_special_cases.
Print Assumptions C37_decomposition_exists.
