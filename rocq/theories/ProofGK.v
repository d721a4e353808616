(** * Rules built from the eigenvalue helpers: exactness *)
From Coquelicot Require Import Coquelicot.
From Coq Require Import List Arith Bool Reals Lra Lia Permutation Sorted FinFun Classical_Prop.
From Verif Require Import Py RSum ModelNd ModelShapes ModelNodes ModelModes ModelQuad ModelGauss ModelKronrod.
From Verif Require Import ProofLinAlg ProofJacobi ProofJacobi2 ProofJacobiOrtho ProofPKDOOrtho ProofMonomial ProofGauss ProofGaussExist ProofGauss2 ProofGauss3 ProofKronrod ProofEig.
Import ListNotations.
Local Open Scope R_scope.

Lemma vp_ext b b' z : forall i, (forall k, (k < i)%nat -> b k = b' k) -> vp b i z = vp b' i z.
Proof.
  assert (P : forall i, (forall k, (k < S i)%nat -> b k = b' k) -> vp b i z = vp b' i z /\ vp b (S i) z = vp b' (S i) z).
  { induction i as [|i IH]; intros H.
    - rewrite !vp_0, !vp_1, H by lia. easy.
    - destruct IH as [I1 I2]; [intros; apply H; lia|]. split; [easy|]. rewrite !vp_SS, I1, I2, !H by lia. easy. }
  intros i H. destruct i as [|i]; [now rewrite !vp_0|]. now apply P.
Qed.
Lemma dpol_ext b b' z : forall i, (forall k, (S k < i)%nat -> b k = b' k) -> dpol b i z = dpol b' i z.
Proof.
  assert (P : forall i, (forall k, (k < i)%nat -> b k = b' k) -> dpol b i z = dpol b' i z /\ dpol b (S i) z = dpol b' (S i) z).
  { induction i as [|i IH]; intros H.
    - rewrite !dpol_0, !dpol_1. easy.
    - destruct IH as [I1 I2]; [intros; apply H; lia|]. split; [easy|]. rewrite !dpol_SS, I1, I2, !H by lia. easy. }
  intros i H. destruct i as [|i]; [now rewrite !dpol_0|]. apply P. intros. apply H. lia.
Qed.
Lemma vnorm_ext b b' m z : (forall k, (S k < m)%nat -> b k = b' k) -> vnorm b m z = vnorm b' m z.
Proof. intros H. unfold vnorm. apply rsum_ext. intros i Hi. now rewrite (vp_ext b b' z i) by (intros; apply H; lia). Qed.
Lemma vp_sym b i z : vp b i (- z) = (-1) ^ i * vp b i z.
Proof.
  assert (P : vp b i (- z) = (-1) ^ i * vp b i z /\ vp b (S i) (- z) = (-1) ^ S i * vp b (S i) z); [|apply P].
  induction i as [|i [I1 I2]].
  - rewrite !vp_0, !vp_1. cbn [pow]. unfold Rdiv. split; ring.
  - split; [easy|]. rewrite !vp_SS, I1, I2. cbn [pow]. unfold Rdiv. ring.
Qed.
Lemma dpol_sym b i z : dpol b i (- z) = (-1) ^ i * dpol b i z.
Proof.
  assert (P : dpol b i (- z) = (-1) ^ i * dpol b i z /\ dpol b (S i) (- z) = (-1) ^ S i * dpol b (S i) z); [|apply P].
  induction i as [|i [I1 I2]].
  - rewrite !dpol_0, !dpol_1. cbn [pow]. split; ring.
  - split; [easy|]. rewrite !dpol_SS, I1, I2. cbn [pow]. ring.
Qed.
Lemma vnorm_sym b m z : vnorm b m (- z) = vnorm b m z.
Proof. unfold vnorm. apply rsum_ext. intros i _. rewrite vp_sym. pose proof (pow_m1_sq i). set (e := (-1) ^ i) in *. replace (e * vp b i z * (e * vp b i z)) with ((e * e) * (vp b i z * vp b i z)) by ring. rewrite H. ring. Qed.

(** What eigvalsh is asked to return for one matrix: all its eigenvalues *)
Definition eig_exact (eigvalsh : eigvalsh_t) (b : nat -> R) (m : nat) : Prop :=
  let l := eigvalsh m (eig_matrix b m) in
  length l = m /\ exists V, eigdec m (eig_matrix b m) (fun i => nth i l 0) V.

Lemma eigdec_perm m T l l' V : length l = m -> Permutation l l' -> eigdec m T (fun i => nth i l 0) V -> exists V', eigdec m T (fun i => nth i l' 0) V'.
Proof.
  intros L P [E O]. destruct (proj1 (Permutation_nth l l' 0) P) as (L' & f & Bf & If & Hf). rewrite L in *.
  exists (fun i j => V i (f j)). split.
  - intros i j Hi Hj. rewrite Hf by easy. apply E; [easy|]. now apply Bf.
  - intros i j Hi Hj. rewrite O by now apply Bf. destruct (Nat.eqb_spec i j) as [->|NE]; [now rewrite Nat.eqb_refl|].
    destruct (Nat.eqb_spec (f i) (f j)) as [EQ|]; [|easy]. elim NE. apply If; easy.
Qed.

Section Gen.
  Context (b : nat -> R) (N : nat).
  Hypothesis Hb : forall k, (k < N)%nat -> 0 < b k.
  Definition al (k : nat) : R := if (k <? N)%nat then b k else 1.
  Let zero := fun _ : nat => 0.
  Definition c0 : R := / sqrt 2.
  Definition pp (n : nat) (x : R) : R := c0 * vp al n x.
  Lemma al_pos k : 0 < al k.
  Proof. unfold al. destruct (Nat.ltb_spec k N); [now apply Hb|lra]. Qed.
  Lemma al_b k : (k < N)%nat -> al k = b k.
  Proof. intros H. unfold al. destruct (Nat.ltb_spec k N); [easy|lia]. Qed.
  Lemma c0_pos : 0 < c0. Proof. apply Rinv_0_lt_compat, sqrt_lt_R0. lra. Qed.
  Lemma c0_sq : c0 ^ 2 = / 2.
  Proof. unfold c0. cbn [pow]. rewrite Rmult_1_r, <- Rinv_mult, sqrt_sqrt by lra. easy. Qed.
  Lemma c0_ne : c0 <> 0. Proof. pose proof c0_pos. lra. Qed.
  Lemma pp_0 x : pp 0 x = c0. Proof. unfold pp. rewrite vp_0. ring. Qed.
  Lemma pp_rec0 x : x * pp 0 x = al 0 * pp 1 x + zero 0%nat * pp 0 x.
  Proof. unfold pp, zero. rewrite vp_0, vp_1. field. apply Rgt_not_eq, al_pos. Qed.
  Lemma pp_recS n x : x * pp (S n) x = al (S n) * pp (S (S n)) x + zero (S n) * pp (S n) x + al n * pp n x.
  Proof. unfold pp, zero. rewrite vp_SS. field. apply Rgt_not_eq, al_pos. Qed.
  Lemma tri_al i j : (i < S N)%nat -> (j < S N)%nat -> tri b zero i j = tri al zero i j.
  Proof.
    intros Hi Hj. unfold tri. destruct (Nat.eqb_spec j i); [easy|]. destruct (Nat.eqb_spec j (S i)); [symmetry; apply al_b; lia|].
    destruct (Nat.eqb_spec i (S j)); [symmetry; apply al_b; lia|easy].
  Qed.
  Section Dec.
    Context (lam : nat -> R) (V : nat -> nat -> R).
    Hypothesis HE : eigdec (S N) (tri b zero) lam V.
    Lemma HE' : eigdec (S N) (tri al zero) lam V.
    Proof. eapply eigdec_ext; [|exact HE]. intros; now apply tri_al. Qed.
    Lemma lam_root j : (j < S N)%nat -> dpol b (S N) (lam j) = 0.
    Proof.
      intros Hj. pose proof (node_root pp al zero c0 al_pos c0_ne pp_0 pp_rec0 pp_recS N lam V HE' j Hj) as H. unfold pp in H.
      apply Rmult_integral in H. destruct H as [H|H]; [now pose proof c0_ne|].
      transitivity (dpol al (S N) (lam j)); [apply dpol_ext; intros; symmetry; apply al_b; lia|].
      rewrite <- vp_dpol by (intros; apply Rgt_not_eq, al_pos). rewrite H. ring.
    Qed.
    Lemma lam_weight j : (j < S N)%nat -> 2 * eigvec1 b (lam j) (S N) 0 ^ 2 = gw c0 V j.
    Proof.
      intros Hj. pose proof (gw_christoffel pp al zero c0 al_pos c0_ne pp_0 pp_rec0 pp_recS N lam V HE' j Hj) as H.
      rewrite eigvec1_vp, vp_0 by lia. pose proof (vnorm_ge1 b (S N) (lam j) ltac:(lia)) as V1.
      assert (E : rsum (fun n => pp n (lam j) * pp n (lam j)) (S N) = / 2 * vnorm b (S N) (lam j)).
      { rewrite (vnorm_ext b al) by (intros; symmetry; apply al_b; lia). unfold vnorm. rewrite <- rsum_scal. apply rsum_ext. intros i _. unfold pp. rewrite <- c0_sq. ring. }
      rewrite E in H. transitivity (2 * / vnorm b (S N) (lam j)).
      - replace (vnorm b (S N) (lam j)) with (sqrt (vnorm b (S N) (lam j)) * sqrt (vnorm b (S N) (lam j))) at 2 by (apply sqrt_sqrt; lra).
        field. apply Rgt_not_eq, sqrt_lt_R0. lra.
      - apply Rmult_eq_reg_r with (/ 2 * vnorm b (S N) (lam j)); [|lra]. rewrite H. field. lra.
    Qed.
    Lemma lam_distinct i j : (i < S N)%nat -> (j < S N)%nat -> lam i = lam j -> i = j.
    Proof. exact (nodes_distinct pp al zero c0 al_pos c0_ne pp_0 pp_rec0 pp_recS N lam V HE' i j). Qed.
    Lemma lam_ortho m n : (m < S N)%nat -> (n < S N)%nat ->
      rsum (fun i => gw c0 V i * (pp m (lam i) * pp n (lam i))) (S N) = if (m =? n)%nat then 1 else 0.
    Proof. exact (disc_ortho pp al zero c0 al_pos c0_ne pp_0 pp_rec0 pp_recS N lam V HE' m n). Qed.
    (** There are no other roots. *)
    Lemma root_is_lam z : dpol b (S N) z = 0 -> exists j, (j < S N)%nat /\ lam j = z.
    Proof.
      intros Hz. pose proof HE as [E O].
      destruct (Classical_Prop.classic (exists j, (j < S N)%nat /\ lam j = z)) as [H|H]; [easy|exfalso].
      assert (RW : forall i, (i < S N)%nat -> rsum (fun k => tri b zero i k * vp b k z) (S N) = z * vp b i z).
      { intros i Hi. assert (NZ : forall k, (k < N)%nat -> b k <> 0) by (intros; apply Rgt_not_eq; now apply Hb).
        destruct (Nat.eq_dec i N) as [->|]; [now apply vp_last|]. apply vp_row; [lia|]. intros k Hk. apply NZ. lia. }
      (* orthogonal to every column *)
      assert (OR : forall j, (j < S N)%nat -> rsum (fun k => vp b k z * V k j) (S N) = 0).
      { intros j Hj. assert (Q : (z - lam j) * rsum (fun k => vp b k z * V k j) (S N) = 0).
        { rewrite Rmult_minus_distr_r, <- !rsum_scal.
          rewrite (rsum_ext (fun k => z * (vp b k z * V k j)) (fun i => rsum (fun k => tri b zero i k * vp b k z * V i j) (S N))).
          2:{ intros i Hi. rewrite rsum_scal_r, RW by easy. ring. }
          rewrite (rsum_ext (fun k => lam j * (vp b k z * V k j)) (fun i => rsum (fun k => tri b zero i k * V k j * vp b i z) (S N))).
          2:{ intros i Hi. rewrite rsum_scal_r, E by easy. ring. }
          rewrite rsum_swap. apply Rminus_diag_eq. apply rsum_ext. intros i Hi. apply rsum_ext. intros k Hk.
          assert (TS : tri b zero k i = tri b zero i k).
          { unfold tri. destruct (Nat.eqb_spec i k); destruct (Nat.eqb_spec k i); destruct (Nat.eqb_spec i (S k)); destruct (Nat.eqb_spec k (S i)); try lia; reflexivity. }
          rewrite TS. ring. }
        apply Rmult_integral in Q. destruct Q as [Q|Q]; [|easy]. exfalso. apply H. exists j. split; [easy|lra]. }
      pose proof (@inverse_swap (S N) (fun i j => V j i) V) as I. unfold prodf in I. specialize (I O 0%nat 0%nat ltac:(lia) ltac:(lia)).
      assert (Z : vp b 0 z = rsum (fun j => V 0%nat j * rsum (fun k => vp b k z * V k j) (S N)) (S N)).
      { rewrite (rsum_ext _ (fun j => rsum (fun k => V 0%nat j * V k j * vp b k z) (S N))) by (intros j Hj; rewrite <- rsum_scal; apply rsum_ext; intros; ring).
        rewrite rsum_swap. pose proof (@inverse_swap (S N) (fun i j => V j i) V) as I2. unfold prodf in I2. specialize (I2 O).
        rewrite (rsum_single _ (S N) 0%nat); [|lia|].
        - rewrite rsum_scal_r. rewrite (I2 0%nat 0%nat) by lia. cbn [Nat.eqb]. ring.
        - intros k Hk NE. rewrite rsum_scal_r, (I2 0%nat k) by lia. destruct (Nat.eqb_spec 0 k); [lia|]. ring. }
      rewrite vp_0 in Z. rewrite rsum_0 in Z; [lra|]. intros j Hj. rewrite OR by easy. ring.
    Qed.
  End Dec.
End Gen.

(** ** The nodes that the code computes *)
Lemma sorted_nth l : StronglySorted Rle l -> forall i j, (i < j < length l)%nat -> nth i l 0 <= nth j l 0.
Proof.
  induction 1 as [|a l S IH F]; intros i j H; [cbn in H; lia|]. cbn [length] in H. destruct j as [|j]; [lia|]. destruct i as [|i].
  - cbn [nth]. rewrite Forall_forall in F. apply F, nth_In. lia.
  - cbn [nth]. apply IH. lia.
Qed.
Lemma firstn_as_map (l : list R) n : (n <= length l)%nat -> firstn n l = map (fun i => nth i l 0) (seq 0 n).
Proof.
  revert n. induction l as [|a l IH]; intros n H; [cbn in H; assert (n = 0%nat) as -> by lia; reflexivity|].
  destruct n as [|n]; [reflexivity|]. cbn [firstn seq map nth]. f_equal. rewrite IH by (cbn in H; lia). rewrite <- seq_shift, map_map. reflexivity.
Qed.
Lemma eignewt_exact eigvalsh b N n : (forall k, (k < N)%nat -> 0 < b k) -> eig_exact eigvalsh b (S N) -> (n <= S N)%nat ->
  exists lam V, eigdec (S N) (tri b (fun _ => 0)) lam V /\ (forall i j, (i < j < S N)%nat -> lam i < lam j)
    /\ eignewt eigvalsh b (S N) n = map lam (seq 0 n).
Proof.
  intros Hb (L & V & HV) Hn. unfold eignewt. set (l := eigvalsh (S N) (eig_matrix b (S N))) in *.
  assert (PS := Permutation_sym (np_sort_perm l)). destruct (eigdec_perm _ _ l (np_sort l) V L PS HV) as (V' & HV').
  assert (LS : length (np_sort l) = S N) by (rewrite <- L; symmetry; now apply Permutation_length).
  assert (D : eigdec (S N) (tri b (fun _ => 0)) (fun i => nth i (np_sort l) 0) V') by (eapply eigdec_ext; [|exact HV']; intros; now apply eig_matrix_tri).
  exists (fun i => nth i (np_sort l) 0), V'. split; [easy|]. split.
  - intros i j Hij. destruct (Rle_lt_or_eq_dec _ _ (sorted_nth _ (np_sort_sorted l) i j ltac:(lia))) as [|E]; [easy|].
    apply (lam_distinct b N Hb _ V' D) in E; lia.
  - rewrite firstn_as_map by lia. rewrite map_map. apply map_ext_in. intros i Hi. apply in_seq in Hi.
    pose proof (lam_root b N Hb _ V' D i ltac:(lia)) as R0. cbv beta in R0. rewrite newton_root, newton_last_root by (easy || lia). reflexivity.
Qed.
(** Symmetry of the nodes *)
Lemma lam_sym b N lam V : (forall k, (k < N)%nat -> 0 < b k) -> eigdec (S N) (tri b (fun _ => 0)) lam V ->
  (forall i j, (i < j < S N)%nat -> lam i < lam j) -> forall i, (i < S N)%nat -> lam (N - i)%nat = - lam i.
Proof.
  intros Hb D S i Hi.
  assert (C : exists f, forall j, (j < Datatypes.S N)%nat -> (f j < Datatypes.S N)%nat /\ lam (f j) = - lam j).
  { apply (finite_choice_nat (fun j f => (f < Datatypes.S N)%nat /\ lam f = - lam j)). intros j Hj.
    apply (root_is_lam b N Hb lam V D). rewrite dpol_sym, (lam_root b N Hb lam V D) by easy. ring. }
  destruct C as (f & F).
  assert (ID : (N - f i = i)%nat).
  { apply (incr_id (Datatypes.S N) (fun j => (N - f j)%nat)); [intros; lia| |easy]. intros j k H. destruct (F j ltac:(lia)) as [F1 F2]. destruct (F k ltac:(lia)) as [F3 F4].
    assert (f k < f j)%nat; [|lia]. destruct (lt_eq_lt_dec (f k) (f j)) as [[G|G]|G]; [easy| |].
    - pose proof (S j k ltac:(lia)). rewrite G in F4. lra.
    - pose proof (S j k ltac:(lia)). pose proof (S (f j) (f k) ltac:(lia)). lra. }
  destruct (F i Hi) as [F1 F2]. replace (N - i)%nat with (f i) by lia. easy.
Qed.
(** ** Legendre coefficients *)
Lemma legendre_b_A i : legendre_b i = A 0 0 i.
Proof.
  pose proof (pos_INR i) as P. assert (Q : 0 < 4 * INR (i + 1) * INR (i + 1) - 1) by (rewrite plus_INR; cbn [INR]; nra).
  assert (L1 : 0 < legendre_b i). { unfold legendre_b. apply Rdiv_lt_0_compat; [rewrite plus_INR; cbn [INR]; lra|now apply sqrt_lt_R0]. }
  assert (L2 : 0 < A 0 0 i) by (apply A_pos; lra).
  assert (SQ : legendre_b i * legendre_b i = A 0 0 i * A 0 0 i).
  { unfold legendre_b. replace (INR (i + 1) / sqrt (4 * INR (i + 1) * INR (i + 1) - 1) * (INR (i + 1) / sqrt (4 * INR (i + 1) * INR (i + 1) - 1)))
      with (INR (i + 1) * INR (i + 1) / (sqrt (4 * INR (i + 1) * INR (i + 1) - 1) * sqrt (4 * INR (i + 1) * INR (i + 1) - 1))) by (field; apply Rgt_not_eq, sqrt_lt_R0; easy).
    rewrite sqrt_sqrt by lra. destruct i as [|i]; unfold A.
    - transitivity (rr 0 0 0 * rr 0 0 0); [rewrite rr_sq by lra; unfold rho; cbn [Nat.add INR]; field; lra|field].
    - set (x := INR (S i)) in *. transitivity ((2 / (2 * x + (0 + 0) + 2) * ((x + 1) * (x + 1 + (0 + 0)) / (2 * x + (0 + 0) + 1))) ^ 2 * (rr 0 0 (S i) * rr 0 0 (S i))); [|ring].
      rewrite rr_sq by lra. unfold rho. fold x. rewrite plus_INR. fold x. cbn [INR]. field. rewrite plus_INR in Q. fold x in Q. cbn [INR] in Q. repeat split; try lra; nra. }
  nra.
Qed.
Lemma legendre_b_pos i : 0 < legendre_b i.
Proof. rewrite legendre_b_A. apply A_pos; lra. Qed.
Lemma bcoef00 i : bcoef 0 0 i = 0.
Proof. destruct i; unfold bcoef; [field|unfold jac_bnew, Rdiv; ring]. Qed.
Lemma kap00 : kap 0 0 0 = c0.
Proof.
  assert (E : kap 0 0 0 ^ 2 = c0 ^ 2).
  { rewrite c0_sq. assert (O := jp_ortho 0 0 0). change (INR 0) with 0 in O.
    assert (O2 : is_RInt (fun x => kap 0 0 0 * kap 0 0 0) (-1) 1 (delta 0 0)).
    { eapply is_RInt_ext; [|exact O]. intros x _. cbv beta. rewrite jp0. cbn [pow]. req; ring. }
    pose proof (is_RInt_unique _ _ _ _ O2) as U. rewrite RInt_const in U. unfold delta in U. cbn [Nat.eqb] in U.
    change (Hierarchy.scal (1 - -1) (kap 0 0 0 * kap 0 0 0)) with ((1 - -1) * (kap 0 0 0 * kap 0 0 0)) in U. lra. }
  pose proof (kap_pos 0 0 0 ltac:(lra) ltac:(lra)). pose proof c0_pos. nra.
Qed.
Lemma jp_vp x : forall n, jp 0 0 n x = c0 * vp legendre_b n x.
Proof.
  assert (P : forall n, jp 0 0 n x = c0 * vp legendre_b n x /\ jp 0 0 (S n) x = c0 * vp legendre_b (S n) x).
  { induction n as [|n [I1 I2]].
    - rewrite jp0, kap00, vp_0, vp_1. split; [ring|]. pose proof (jp_rec0 0 0 ltac:(lra) ltac:(lra) x) as H. rewrite jp0, kap00, bcoef00, <- legendre_b_A in H.
      pose proof (legendre_b_pos 0). apply Rmult_eq_reg_l with (legendre_b 0); [|lra]. transitivity (x * c0); [lra|]. field. lra.
    - split; [easy|]. pose proof (jp_recS 0 0 ltac:(lra) ltac:(lra) n x) as H. rewrite I1, I2, bcoef00, <- !legendre_b_A in H. rewrite vp_SS.
      pose proof (legendre_b_pos (S n)). apply Rmult_eq_reg_l with (legendre_b (S n)); [|lra]. transitivity (x * (c0 * vp legendre_b (S n) x) - legendre_b n * (c0 * vp legendre_b n x)); [lra|]. field. lra. }
  intros n. apply P.
Qed.
Definition Int1 (f : R -> R) (l : R) : Prop := is_RInt f (-1) 1 l.
Lemma leg_ortho m n : Int1 (fun x => c0 * vp legendre_b m x * (c0 * vp legendre_b n x)) (if (m =? n)%nat then 1 else 0).
Proof.
  pose proof (jp_ortho 0 m n) as H. change (INR 0) with 0 in H. unfold Int1. eapply is_RInt_ext; [|exact H]. intros x _. cbv beta. rewrite !jp_vp. cbn [pow]. req; ring.
Qed.
Lemma Int1_ext f g l : (forall x, f x = g x) -> Int1 f l -> Int1 g l.
Proof. intros E H. unfold Int1. eapply is_RInt_ext; [|exact H]. intros; apply E. Qed.
Lemma Int1_plus f g l m : Int1 f l -> Int1 g m -> Int1 (fun x => f x + g x) (l + m).
Proof. intros H1 H2. exact (is_RInt_plus f g (-1) 1 l m H1 H2). Qed.
Lemma Int1_scal c f l : Int1 f l -> Int1 (fun x => c * f x) (c * l).
Proof. intros H. exact (is_RInt_scal f (-1) 1 c l H). Qed.

(** ** Rules that share the first recurrence coefficients with Legendre's *)
Section Agree.
  Context (b : nat -> R) (N K : nat) (lam W : nat -> R).
  Hypothesis Hb : forall k, (k < K)%nat -> b k = legendre_b k.
  Let p := fun m x => c0 * vp b m x.
  Let G := fun f : R -> R => rsum (fun i => W i * f (lam i)) (S N).
  Hypothesis HG : forall m n, (m <= K)%nat -> (n <= K)%nat -> G (fun x => p m x * p n x) = if (m =? n)%nat then 1 else 0.
  Lemma p_leg m x : (m <= K)%nat -> p m x = c0 * vp legendre_b m x.
  Proof. intros H. unfold p. f_equal. apply vp_ext. intros. apply Hb. lia. Qed.
  Lemma p_rec' m x : (m < K)%nat -> x * p m x = b m * p (S m) x + (match m with O => 0 | S j => b j end) * p (Nat.pred m) x.
  Proof.
    intros H. assert (0 < b m) by (rewrite Hb by easy; apply legendre_b_pos). unfold p. destruct m as [|m]; cbn [Nat.pred].
    - rewrite vp_0, vp_1. field. lra.
    - rewrite vp_SS. field. lra.
  Qed.
  Lemma agree_prod : forall k m n, (k + m + n <= 2 * K)%nat -> (m <= K)%nat -> (n <= K)%nat ->
    Int1 (fun x => x ^ k * (p m x * p n x)) (G (fun x => x ^ k * (p m x * p n x))).
  Proof.
    induction k as [|k IH]; intros m n Hk Hm Hn.
    - eapply Int_cast'; [eapply Int1_ext; [|apply (leg_ortho m n)]; intros x; cbv beta; rewrite !p_leg by easy; cbn [pow]; ring|].
      rewrite <- (HG m n) by lia. unfold G. apply rsum_ext. intros i _. cbn [pow]. ring.
    - assert (STEP : forall f (c1 c3 : R) g1 g3, (forall x, f x = c1 * g1 x + c3 * g3 x) ->
        Int1 g1 (G g1) -> (c3 = 0 \/ Int1 g3 (G g3)) -> Int1 f (G f)).
      { intros f c1 c3 g1 g3 E I1 I3.
        assert (E0 : G f = c1 * G g1 + c3 * G g3).
        { unfold G. rewrite <- !rsum_scal, <- !rsum_plus. apply rsum_ext. intros i _. rewrite E. ring. }
        destruct I3 as [->|I3].
        - eapply Int_cast'; [eapply Int1_ext; [|apply (Int1_scal c1 _ _ I1)]|rewrite E0; ring].
          intros x. cbv beta. rewrite E. ring.
        - eapply Int_cast'; [eapply Int1_ext; [|apply (Int1_plus _ _ _ _ (Int1_scal c1 _ _ I1) (Int1_scal c3 _ _ I3))]|rewrite E0; ring].
          intros x. cbv beta. rewrite E. ring. }
      destruct (le_lt_dec K m) as [HmK|HmK].
      + apply (STEP _ (b n) (match n with O => 0 | S j => b j end) (fun x => x ^ k * (p m x * p (S n) x)) (fun x => x ^ k * (p m x * p (Nat.pred n) x))).
        * intros x. transitivity (x ^ k * (p m x * (x * p n x))); [cbn [pow]; ring|]. rewrite p_rec' by lia. ring.
        * apply IH; lia.
        * destruct n as [|j]; [now left|right]. apply IH; cbn [Nat.pred]; lia.
      + apply (STEP _ (b m) (match m with O => 0 | S j => b j end) (fun x => x ^ k * (p (S m) x * p n x)) (fun x => x ^ k * (p (Nat.pred m) x * p n x))).
        * intros x. transitivity (x ^ k * ((x * p m x) * p n x)); [cbn [pow]; ring|]. rewrite p_rec' by lia. ring.
        * apply IH; lia.
        * destruct m as [|j]; [now left|right]. apply IH; cbn [Nat.pred]; lia.
  Qed.
  Lemma agree_mono k : (k <= 2 * K)%nat -> Int1 (fun x => x ^ k) (G (fun x => x ^ k)).
  Proof.
    intros Hk. pose proof (agree_prod k 0 0 ltac:(lia) ltac:(lia) ltac:(lia)) as H. apply (Int1_scal 2) in H.
    assert (E : forall x, 2 * (x ^ k * (p 0 x * p 0 x)) = x ^ k).
    { intros x. unfold p. rewrite vp_0. transitivity (2 * x ^ k * c0 ^ 2); [ring|]. rewrite c0_sq. field. }
    eapply Int_cast'; [eapply Int1_ext; [|exact H]|].
    - exact E.
    - unfold G. rewrite <- rsum_scal. apply rsum_ext. intros i _. transitivity (W i * (2 * (lam i ^ k * (p 0 (lam i) * p 0 (lam i))))); [ring|now rewrite E].
  Qed.
End Agree.
