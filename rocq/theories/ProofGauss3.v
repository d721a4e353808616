(** * Exactness of the model's Gauss rules, for a general integration relation *)
From Coquelicot Require Import Coquelicot.
From Coq Require Import List Arith Bool ZArith QArith Reals Lra Lia.
From Verif Require Import Py RSum PyToolsModel ModelNd ModelShapes ModelNodes ModelModes ModelQuad ModelGauss.
From Verif Require Import SpecPoly ProofJacobi ProofJacobi2 ProofJacobiOrtho ProofBetaReal ProofQuad ProofPoly1 ProofGauss ProofGaussExist ProofGauss2 ProofCheb.
Import ListNotations.
Local Open Scope R_scope.

(** The linear-algebra routine returns an orthonormal eigendecomposition of the
    matrix of this rule. *)
Definition eigh_at (eigh : eigh_t) (a b : R) (N : nat) : Prop :=
  eigdec (S N) (jg_matrix a b N) (fst (eigh (S N) (jg_matrix a b N))) (snd (eigh (S N) (jg_matrix a b N))).

Lemma tri_eigdec a b N lam V : -1 < a -> -1 < b -> a + b + 1 <> 0 ->
  eigdec (S N) (jg_matrix a b N) lam V -> eigdec (S N) (tri (A a b) (bcoef a b)) lam V.
Proof. intros Ha Hb Hab. apply eigdec_ext. intros i j Hi Hj. now apply jg_matrix_tri. Qed.

(** Parameters for which the computation is exact arithmetic for the stated weight *)
Definition gauss_params (a b : R) : Prop :=
  -1 < a /\ -1 < b /\ ((a = - (1 / 2) /\ b = - (1 / 2)) \/ (not_cheb a b /\ / 10 ^ 14 <= Rabs (a + b + 1))).

Lemma small14 : 0 < / 10 ^ 14.
Proof. apply Rinv_0_lt_compat, pow_lt. lra. Qed.
Lemma gauss_params_exact a b : gauss_params a b -> exact_params a b.
Proof. intros (_ & _ & [[-> ->]|[_ H]]); [left; lra|now right]. Qed.

(** Both branches produce nodes and weights of an eigendecomposition. *)
Lemma jg_compute_shape eigh a b N : gauss_params a b -> (a + b + 1 <> 0 -> eigh_at eigh a b N) ->
  exists lam V, eigdec (S N) (tri (A a b) (bcoef a b)) lam V
    /\ jg_compute eigh N a b = Ok (map lam (seq 0 (S N)), map (gw (kap a b 0) V) (seq 0 (S N))).
Proof.
  pose proof small14 as P14. intros (Ha & Hb & [[-> ->]|[NC E1]]) HE.
  - exists (fun i => cos (cheb_theta N i)), (root_vecs (jp (- (1 / 2)) (- (1 / 2))) N (fun i => cos (cheb_theta N i))). split.
    + apply (eigdec_roots (jp (- (1 / 2)) (- (1 / 2))) _ _ (kap (- (1 / 2)) (- (1 / 2)) 0)).
      * now apply kap0_ne.
      * apply jp0.
      * now apply jp_rec0.
      * now apply jp_recS.
      * intros i Hi. rewrite cheb_jp, cheb_theta_root by easy. ring.
      * intros i j Hij. pose proof (cheb_theta_mono N i j Hij). lra.
    + unfold jg_compute. replace (- (1 / 2) + 1 / 2) with 0 by ring. rewrite Rabs_R0, Rlt_bool_true by easy. cbn [andb]. rewrite cheb_nodes. f_equal. f_equal.
      apply (nth_ext _ _ 0 0).
      * rewrite repeat_length, map_length, seq_length. lia.
      * intros i Hi. rewrite repeat_length in Hi. 
        set (W := gw (kap (- (1 / 2)) (- (1 / 2)) 0) (root_vecs (jp (- (1 / 2)) (- (1 / 2))) N (fun i => cos (cheb_theta N i)))).
        rewrite (nth_indep (map W (seq 0 (S N))) 0 (W 0%nat)) by (rewrite map_length, seq_length; lia). rewrite map_nth, seq_nth, Nat.add_0_l by lia.
        assert (NR : forall (x : R) n i, (i < n)%nat -> nth i (repeat x n) 0 = x).
        { intros x n. induction n as [|n IH]; intros [|k] Hk; try lia; cbn [repeat nth]; [easy|]. apply IH. lia. }
        rewrite NR by easy. unfold W, gw, root_vecs. pose proof (cheb_theta_range N i ltac:(lia)) as [T1 T2].
        rewrite cheb_christoffel; [|apply Rgt_not_eq, sin_gt_0; easy|apply cheb_theta_root; lia].
        rewrite jp0. assert (0 < INR (S N)) by (apply lt_0_INR; lia). pose proof PI_RGT_0.
        assert (Q : 0 < INR (S N) / PI) by now apply Rdiv_lt_0_compat.
        assert (SQ : sqrt (INR (S N) / PI) ^ 2 = INR (S N) / PI) by (cbn [pow]; rewrite Rmult_1_r; apply sqrt_sqrt; lra).
        pose proof (kap0_ne (- (1 / 2)) (- (1 / 2)) Ha Hb) as K0. set (kk := kap (- (1 / 2)) (- (1 / 2)) 0) in *.
        assert (Sp : 0 < sqrt (INR (S N) / PI)) by now apply sqrt_lt_R0.
        transitivity (/ (sqrt (INR (S N) / PI) ^ 2)).
        -- rewrite SQ, S_INR. rewrite S_INR in H. field. lra.
        -- field. split; lra.
  - assert (Hab : a + b + 1 <> 0) by (intros E; rewrite E, Rabs_R0 in E1; lra). specialize (HE Hab). unfold eigh_at in HE.
    destruct (eigh (S N) (jg_matrix a b N)) as [lam V] eqn:EE. cbn [fst snd] in HE. exists lam, V. split; [now apply tri_eigdec|].
    now apply jg_compute_ok.
Qed.

Definition builtin (be : option backend) : Prop := be = None \/ be = Some Builtin.

Section Exact.
  Context (eigh : eigh_t) (rj : roots_t) (a b : R) (N : nat) (be : option backend) (force : bool).
  Hypothesis HP : gauss_params a b.
  Hypothesis HE : a + b + 1 <> 0 -> eigh_at eigh a b N.
  Hypothesis HB : builtin be.

  Lemma gauss_shape : exists lam V, eigdec (S N) (tri (A a b) (bcoef a b)) lam V
    /\ jacobi_gauss eigh rj a b N be force = Ok (mkQuad (negb force) 1 (map (fun x => [x]) (map lam (seq 0 (S N))))
         (map (gw (kap a b 0) V) (seq 0 (S N))) (Some (degree (2 * N + 1)))).
  Proof.
    destruct (jg_compute_shape eigh a b N HP HE) as (lam & V & D & E). exists lam, V. split; [easy|].
    unfold jacobi_gauss. destruct HB as [->| ->]; rewrite E; reflexivity.
  Qed.
  Context (Int : (R -> R) -> R -> Prop).
  Hypothesis Int_ext : forall f g l, (forall x, f x = g x) -> Int f l -> Int g l.
  Hypothesis Int_plus : forall f g l m, Int f l -> Int g m -> Int (fun x => f x + g x) (l + m).
  Hypothesis Int_scal : forall c f l, Int f l -> Int (fun x => c * f x) (c * l).
  Hypothesis Int_ortho : forall m n, Int (fun x => jp a b m x * jp a b n x) (delta m n).
  Lemma gauss_exact q phi : jacobi_gauss eigh rj a b N be force = Ok q -> is_poly 1 (2 * N + 1) phi ->
    exists v, Int (fun x => phi [x]) v /\ q_call q (fun x => Ok (phi x)) = Ok v.
  Proof.
    intros E Hp. destruct gauss_shape as (lam & V & D & E'). rewrite E' in E.
    match goal with H : Ok ?x = Ok q |- _ => assert (q = x) as -> by congruence end. clear E E'.
    destruct HP as (Ha & Hb & _).
    exists (grule (kap a b 0) N lam V (fun x => phi [x])). split.
    - destruct (is_poly_poly1 _ _ Hp) as (c & Ec).
      pose proof (gauss_poly (jp a b) (A a b) (bcoef a b) (kap a b 0) (fun n => A_pos a b Ha Hb n) (kap0_ne a b Ha Hb) (jp0 a b)
        (jp_rec0 a b Ha Hb) (jp_recS a b Ha Hb) N lam V D Int Int_ext Int_plus Int_scal Int_ortho c (S (2 * N + 1)) (le_n _)) as G.
      eapply Int_cast'; [eapply Int_ext; [|exact G]|].
      + intros x. cbv beta. symmetry. apply Ec.
      + unfold grule. apply rsum_ext. intros i _. f_equal. symmetry. apply Ec.
    - rewrite (q_call_rule _ _ phi) by first [reflexivity|apply wf_of_lists; now rewrite !map_length]. f_equal. apply rule_of_lists.
  Qed.
End Exact.

(** Increasing enumerations of the same finite set agree. *)
Lemma incr_id n (f : nat -> nat) : (forall i, (i < n)%nat -> (f i < n)%nat) -> (forall i j, (i < j < n)%nat -> (f i < f j)%nat) ->
  forall i, (i < n)%nat -> f i = i.
Proof.
  intros H1 H2.
  assert (L : forall i, (i < n)%nat -> (i <= f i)%nat).
  { induction i as [|i IH]; intros Hi; [lia|]. pose proof (H2 i (S i) ltac:(lia)). specialize (IH ltac:(lia)). lia. }
  assert (U : forall d i, (i + d = n - 1)%nat -> (i < n)%nat -> (f i <= i)%nat).
  { induction d as [|d IH]; intros i E Hi; [pose proof (H1 i Hi); lia|]. pose proof (H2 i (S i) ltac:(lia)). specialize (IH (S i) ltac:(lia) ltac:(lia)). lia. }
  intros i Hi. pose proof (L i Hi). pose proof (U (n - 1 - i)%nat i ltac:(lia) Hi). lia.
Qed.
Lemma finite_choice_nat (P : nat -> nat -> Prop) n : (forall j, (j < n)%nat -> exists z, P j z) -> exists f, forall j, (j < n)%nat -> P j (f j).
Proof.
  induction n as [|n IH]; intros H; [exists (fun _ => 0%nat); intros; lia|].
  destruct IH as (f & F); [auto|]. destruct (H n ltac:(lia)) as (z & Z). exists (fun j => if (j =? n)%nat then z else f j).
  intros j Hj. destruct (Nat.eqb_spec j n) as [->|]; [easy|]. apply F. lia.
Qed.
(** Any decomposition with increasing eigenvalues has the roots as its eigenvalues
    and the Christoffel numbers as its weights. *)
Lemma eigdec_unique a b N lam V lam' V' : -1 < a -> -1 < b ->
  eigdec (S N) (tri (A a b) (bcoef a b)) lam V -> (forall i j, (i < j < S N)%nat -> lam i <= lam j) ->
  eigdec (S N) (tri (A a b) (bcoef a b)) lam' V' -> (forall i j, (i < j < S N)%nat -> lam' i <= lam' j) ->
  forall i, (i < S N)%nat -> lam i = lam' i /\ gw (kap a b 0) V i = gw (kap a b 0) V' i.
Proof.
  intros Ha Hb D S1 D' S2.
  assert (R1 : forall i, (i < S N)%nat -> jp a b (S N) (lam i) = 0)
    by (intros; apply (node_root (jp a b) (A a b) (bcoef a b) (kap a b 0) (fun n => A_pos a b Ha Hb n) (kap0_ne a b Ha Hb) (jp0 a b)
        (jp_rec0 a b Ha Hb) (jp_recS a b Ha Hb) N lam V D); easy).
  assert (X1 : forall i j, (i < S N)%nat -> (j < S N)%nat -> lam i = lam j -> i = j)
    by (apply (nodes_distinct (jp a b) (A a b) (bcoef a b) (kap a b 0) (fun n => A_pos a b Ha Hb n) (kap0_ne a b Ha Hb) (jp0 a b)
        (jp_rec0 a b Ha Hb) (jp_recS a b Ha Hb) N lam V D); easy).
  assert (X2 : forall i j, (i < S N)%nat -> (j < S N)%nat -> lam' i = lam' j -> i = j)
    by (apply (nodes_distinct (jp a b) (A a b) (bcoef a b) (kap a b 0) (fun n => A_pos a b Ha Hb n) (kap0_ne a b Ha Hb) (jp0 a b)
        (jp_rec0 a b Ha Hb) (jp_recS a b Ha Hb) N lam' V' D'); easy).
  assert (R2 : forall i, (i < S N)%nat -> jp a b (S N) (lam' i) = 0)
    by (intros; apply (node_root (jp a b) (A a b) (bcoef a b) (kap a b 0) (fun n => A_pos a b Ha Hb n) (kap0_ne a b Ha Hb) (jp0 a b)
        (jp_rec0 a b Ha Hb) (jp_recS a b Ha Hb) N lam' V' D'); easy).
  assert (PP : poly1 (S N) (jp a b (S N))).
  { apply (p_poly (jp a b) (A a b) (bcoef a b) (kap a b 0) (fun n => A_pos a b Ha Hb n) (jp0 a b) (jp_rec0 a b Ha Hb) (jp_recS a b Ha Hb)). }
  destruct (poly1_factor (S N) (jp a b (S N)) lam' PP) as (k & K); [intros i j Hij E; apply X2 in E; lia|exact R2|].
  assert (Hk : k <> 0). { pose proof (jp_end a b Ha Hb (S N)) as E. rewrite K in E. intros ->. lra. }
  destruct (finite_choice_nat (fun i j => (j < S N)%nat /\ lam i = lam' j) (S N)) as (f & Hf).
  { intros i Hi. specialize (R1 i Hi). rewrite K in R1. apply Rmult_integral in R1. destruct R1 as [|R1]; [easy|].
    apply rprod_zero in R1. destruct R1 as (j & Hj & E). exists j. split; [easy|lra]. }
  assert (FI : forall i, (i < S N)%nat -> f i = i).
  { apply incr_id; [intros; now apply Hf|]. intros i j Hij. destruct (Hf i ltac:(lia)) as [F1 F2]. destruct (Hf j ltac:(lia)) as [F3 F4].
    destruct (Nat.lt_total (f i) (f j)) as [|[E|E]]; [easy| |].
    - assert (i = j) by (apply X1; [lia|lia|congruence]). lia.
    - pose proof (S2 (f j) (f i) ltac:(lia)). pose proof (S1 i j Hij). assert (i = j) by (apply X1; [lia|lia|lra]). lia. }
  intros i Hi. assert (EL : lam i = lam' i) by (destruct (Hf i Hi) as [_ H]; now rewrite FI in H). split; [exact EL|].
  pose proof (gw_christoffel (jp a b) (A a b) (bcoef a b) (kap a b 0) (fun n => A_pos a b Ha Hb n) (kap0_ne a b Ha Hb) (jp0 a b)
        (jp_rec0 a b Ha Hb) (jp_recS a b Ha Hb) N lam V D i Hi) as G1.
  pose proof (gw_christoffel (jp a b) (A a b) (bcoef a b) (kap a b 0) (fun n => A_pos a b Ha Hb n) (kap0_ne a b Ha Hb) (jp0 a b)
        (jp_rec0 a b Ha Hb) (jp_recS a b Ha Hb) N lam' V' D' i Hi) as G2.
  rewrite <- EL in G2. set (S := rsum _ _) in *.
  assert (S <> 0) by (intros E; rewrite E in G1; lra). apply Rmult_eq_reg_r with S; [lra|easy].
Qed.
