(** * The Gauss rule of the model *)
From Coquelicot Require Import Coquelicot.
From Coq Require Import List Arith Bool ZArith QArith Reals Lra Lia.
From Verif Require Import Py RSum PyToolsModel ModelNd ModelShapes ModelNodes ModelModes ModelQuad ModelGauss.
From Verif Require Import SpecPoly ProofJacobi ProofJacobi2 ProofJacobiOrtho ProofBetaReal ProofQuad ProofPoly1 ProofGauss ProofGaussExist.
Import ListNotations.
Local Open Scope R_scope.

Lemma Rlt_bool_true x y : x < y -> Rlt_bool x y = true.
Proof. intros. unfold Rlt_bool. destruct (Rlt_dec x y); [easy|lra]. Qed.
Lemma Rlt_bool_false x y : y <= x -> Rlt_bool x y = false.
Proof. intros. unfold Rlt_bool. destruct (Rlt_dec x y); [lra|easy]. Qed.

Section Params.
  Context (a b : R) (Ha : -1 < a) (Hb : -1 < b) (Hab : a + b + 1 <> 0).

  Lemma jg_a_A n : jg_a a b (S n) = A a b n.
  Proof.
    destruct n as [|n].
    - rewrite <- A_0. unfold jg_a. cbv zeta. change (INR 1) with 1. f_equal; [f_equal; ring|]. f_equal. field. repeat split; lra.
    - rewrite <- A_S by easy. unfold jg_a, jac_anew. cbv zeta. rewrite !S_INR. pose proof (pos_INR n). f_equal; [f_equal; ring|]. f_equal.
      field. repeat split; lra.
  Qed.
  Lemma jg_b_bcoef n : jg_b a b n = bcoef a b n.
  Proof.
    destruct n as [|n]; unfold jg_b, bcoef; cbv zeta.
    - f_equal. ring.
    - unfold jac_bnew. cbv zeta. f_equal. ring.
  Qed.
  Lemma jg_loop N k : (k <= S N)%nat ->
    let st := fold_left (jg_step a b N) (seq 0 k) (fun _ _ => 0, 0) in
    (forall i j, (i < S N)%nat -> (j < S N)%nat -> fst st i j = if (i <? k)%nat then tri (A a b) (bcoef a b) i j else 0)
    /\ ((0 < k <= N)%nat -> snd st = A a b (k - 1)).
  Proof.
    induction k as [|k IH]; intros Hk.
    - cbn. split; [easy|lia].
    - cbv zeta. rewrite seq_S, fold_left_app. cbn [fold_left]. rewrite Nat.add_0_l.
      destruct (IH ltac:(lia)) as [I1 I2]. cbv zeta in I1, I2.
      destruct (fold_left (jg_step a b N) (seq 0 k) (fun _ _ => 0, 0)) as [T c]. cbn [fst snd] in I1, I2.
      unfold jg_step. rewrite jg_b_bcoef, Nat.add_1_r, jg_a_A.
      split.
      + intros i j Hi Hj.
        assert (Hc : (0 < k)%nat -> c = A a b (k - 1)) by (intros; apply I2; lia).
        specialize (I1 i j Hi Hj). unfold tri.
        destruct (Nat.ltb_spec 0 k); destruct (Nat.ltb_spec k N); cbn [fst]; unfold mset;
          destruct (Nat.eqb_spec i k); cbn [andb].
        all: try (subst i; destruct (Nat.ltb_spec k (S k)); [|lia]).
        all: try (destruct (Nat.ltb_spec k k); [lia|]).
        all: try (rewrite I1; unfold tri; destruct (Nat.ltb_spec i k); destruct (Nat.ltb_spec i (S k)); try lia; reflexivity).
        all: repeat match goal with |- context [(?x =? ?y)%nat] => destruct (Nat.eqb_spec x y) end; try lia; try reflexivity; try easy.
        all: try (rewrite Hc by lia; f_equal; lia).
      + intros Hk1. destruct (Nat.ltb_spec k N); [|lia]. cbn [snd]. f_equal. lia.
  Qed.
  Lemma jg_matrix_tri N i j : (i < S N)%nat -> (j < S N)%nat -> jg_matrix a b N i j = tri (A a b) (bcoef a b) i j.
  Proof.
    intros Hi Hj. unfold jg_matrix. rewrite Nat.add_1_r. destruct (jg_loop N (S N) (le_n _)) as [H _]. cbv zeta in H. rewrite H by easy.
    destruct (Nat.ltb_spec i (S N)); [easy|lia].
  Qed.

  (** Facts about the normalised polynomials in the form the Gauss section needs *)
  Lemma jp0 x : jp a b 0 x = kap a b 0.
  Proof. unfold jp. rewrite F_0. ring. Qed.
  Lemma kap0_ne : kap a b 0 <> 0.
  Proof. pose proof (kap_pos a b 0 Ha Hb). lra. Qed.
  Lemma jp_rec0 x : x * jp a b 0 x = A a b 0 * jp a b 1 x + bcoef a b 0 * jp a b 0 x.
  Proof. rewrite jp_first by easy. unfold bcoef. ring. Qed.
  Lemma jp_recS n x : x * jp a b (S n) x = A a b (S n) * jp a b (S (S n)) x + bcoef a b (S n) * jp a b (S n) x + A a b n * jp a b n x.
  Proof. pose proof (jp_rec a b Ha Hb n x) as H. unfold bcoef. lra. Qed.
  Lemma jp_end n : 0 < jp a b n 1.
  Proof. unfold jp. rewrite F_at1. pose proof (kap_pos a b n Ha Hb). lra. Qed.
End Params.
Lemma jp_endm a b n : -1 < a -> -1 < b -> 0 < (-1) ^ n * jp a b n (-1).
Proof.
  intros Ha Hb. replace (-1) with (- (1)) at 2 by ring. rewrite (jp_sym a b n 1 Ha Hb), <- Rmult_assoc, pow_m1_sq, Rmult_1_l. now apply jp_end.
Qed.

(** Existence of the eigendecomposition of the code's matrix *)
Definition jg_eigdec (a b : R) (N : nat) := eigdec (S N) (jg_matrix a b N).
Lemma eigdec_ext n T T' lam V : (forall i j, (i < n)%nat -> (j < n)%nat -> T i j = T' i j) -> eigdec n T lam V -> eigdec n T' lam V.
Proof.
  intros E [H1 H2]. split; [|easy]. intros i j Hi Hj. rewrite <- H1 by easy. apply rsum_ext. intros k Hk. now rewrite E.
Qed.
Theorem jg_eigdec_exists a b N : -1 < a -> -1 < b -> a + b + 1 <> 0 ->
  exists lam V, jg_eigdec a b N lam V /\ forall i j, (i < j < S N)%nat -> lam i < lam j.
Proof.
  intros Ha Hb Hab.
  destruct (eigdec_exists (jp a b) (A a b) (bcoef a b) (kap a b 0) (fun n => A_pos a b Ha Hb n) (kap0_ne a b Ha Hb) (jp0 a b)
     (jp_rec0 a b Ha Hb) (jp_recS a b Ha Hb) (fun n => jp_end a b Ha Hb n) (fun n => jp_endm a b n Ha Hb) N) as (lam & V & H & S).
  exists lam, V. split; [|easy]. eapply eigdec_ext; [|exact H]. intros i j Hi Hj. symmetry. now apply jg_matrix_tri.
Qed.

(** What the rule consists of *)
Definition not_cheb (a b : R) : Prop := / 10 ^ 14 <= Rabs (a + 1 / 2) \/ / 10 ^ 14 <= Rabs (b + 1 / 2).
Lemma jg_compute_ok eigh N a b lam V : -1 < a -> -1 < b -> not_cheb a b -> / 10 ^ 14 <= Rabs (a + b + 1) ->
  eigh (S N) (jg_matrix a b N) = (lam, V) -> jg_eigdec a b N lam V ->
  jg_compute eigh N a b = Ok (map lam (seq 0 (S N)), map (gw (kap a b 0) V) (seq 0 (S N))).
Proof.
  intros Ha Hb NC E1 EE HE.
  assert (P12 : 0 < / 10 ^ 12) by (apply Rinv_0_lt_compat, pow_lt; lra).
  assert (Hab : a + b + 1 <> 0). { intros E. rewrite E, Rabs_R0 in E1. assert (0 < / 10 ^ 14) by (apply Rinv_0_lt_compat, pow_lt; lra). lra. }
  unfold jg_compute. rewrite Nat.add_1_r.
  assert (C : (Rlt_bool (Rabs (a + 1 / 2)) (/ 10 ^ 14) && Rlt_bool (Rabs (b + 1 / 2)) (/ 10 ^ 14))%bool = false).
  { destruct NC as [NC|NC]; rewrite (Rlt_bool_false _ _ NC); [reflexivity|apply andb_false_r]. }
  rewrite C, (Rlt_bool_false _ _ E1).
  assert (FZ : forall M, (forall i j, (i < S N)%nat -> (j < S N)%nat -> M i j = 0) -> Rlt_bool (frob (S N) M) (/ 10 ^ 12) = true).
  { intros M HM. apply Rlt_bool_true. unfold frob. rewrite rsum_0, sqrt_0; [easy|]. intros i Hi. apply rsum_0. intros j Hj. rewrite HM by easy. ring. }
  rewrite FZ; cbn [negb].
  2:{ intros i j Hi Hj. rewrite !jg_matrix_tri by easy. unfold tri.
      destruct (Nat.eqb_spec j i); destruct (Nat.eqb_spec i j); destruct (Nat.eqb_spec j (S i)); destruct (Nat.eqb_spec i (S j)); subst; try lia; ring. }
  rewrite EE. rewrite FZ; cbn [negb].
  2:{ intros i j Hi Hj. destruct HE as [HE _]. rewrite HE by easy.
      rewrite (rsum_single (fun k => V i k * (if (k =? j)%nat then lam j else 0)) (S N) j); [rewrite Nat.eqb_refl; ring|easy|].
      intros k _ Hk. destruct (Nat.eqb_spec k j); [easy|ring]. }
  f_equal. f_equal. apply map_ext_in. intros i Hi. apply in_seq in Hi.
  unfold gw. f_equal. f_equal. rewrite jacobi_jp by first [easy|now apply jac_gamma0_pos]. now apply jp0.
Qed.

Lemma rule_of_lists (xs : nat -> R) (ws : nat -> R) n flat ex phi :
  rule (mkQuad flat 1 (map (fun x => [x]) (map xs (seq 0 n))) (map ws (seq 0 n)) ex) phi = rsum (fun i => ws i * phi [xs i]) n.
Proof.
  unfold rule. cbn [q_weights q_nodes]. rewrite !map_map. rewrite <- lsum_seq. unfold dotR, ProofGM.lsum, list_sum.
  generalize (seq 0 n). intros l. induction l as [|i l IH]; [reflexivity|]. cbn [map combine fold_right fst snd] in *. now rewrite IH.
Qed.
Lemma wf_of_lists (xs ws : list R) flat ex : length xs = length ws -> wf_quad (mkQuad flat 1 (map (fun x => [x]) xs) ws ex).
Proof.
  intros L. split; cbn [q_nodes q_weights q_dim]; [|now rewrite map_length].
  apply Forall_map, Forall_forall. reflexivity.
Qed.
