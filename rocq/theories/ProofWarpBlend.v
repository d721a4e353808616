(** * Warp-and-blend nodes: the Gauss-Lobatto points and the warp function *)
From Coquelicot Require Import Coquelicot.
From Coq Require Import List Arith Bool ZArith QArith Reals Lra Lia FinFun.
From Verif Require Import Py RSum PyToolsModel ModelNd ModelShapes ModelSpaces ModelNodes ModelModes ModelBasis ModelQuad ModelGauss ModelMatrices ModelTools ModelWarpBlend.
From Verif Require Import RField ModelLinAlg SpecPoly SpecSpan SpecPartial ProofJacobi ProofJacobi2 ProofJacobiOrtho ProofQuad ProofPoly1 ProofGauss ProofGaussExist ProofGauss2 ProofGauss3
  ProofTransplanted ProofLobatto ProofLobatto2 ProofLinAlg ProofMatrices ProofFaces PropsGauss PropsLobatto.
Import ListNotations.
Local Open Scope R_scope.

(** ** The one-dimensional points *)
(** The eigenvalues come in ascending order (numpy's convention). *)
Definition lobatto_ascending (eigh : eigh_t) (N : nat) : Prop := (2 <= N)%nat -> ascending eigh (0 + 1) (0 + 1) (N - 2).

(** Increasing points from -1 to 1, symmetric about 0. *)
Definition sym_points (n : nat) (xs : list R) : Prop :=
  length xs = S n /\ nth 0 xs 0 = -1 /\ nth n xs 0 = 1
  /\ (forall i j, (i < j <= n)%nat -> nth i xs 0 < nth j xs 0)
  /\ (forall i, (i <= n)%nat -> nth (n - i) xs 0 = - nth i xs 0).

Lemma jacobi_nodes_sym a N lam V : -1 < a -> eigdec (S N) (tri (A a a) (bcoef a a)) lam V ->
  (forall i j, (i < j < S N)%nat -> lam i <= lam j) -> forall i, (i < S N)%nat -> lam (N - i)%nat = - lam i.
Proof.
  intros Ha D S1.
  set (rt := node_root (jp a a) (A a a) (bcoef a a) (kap a a 0) (fun n => A_pos a a Ha Ha n) (kap0_ne a a Ha Ha) (jp0 a a) (jp_rec0 a a Ha Ha) (jp_recS a a Ha Ha) N lam V D).
  set (X1 := nodes_distinct (jp a a) (A a a) (bcoef a a) (kap a a 0) (fun n => A_pos a a Ha Ha n) (kap0_ne a a Ha Ha) (jp0 a a) (jp_rec0 a a Ha Ha) (jp_recS a a Ha Ha) N lam V D).
  assert (PP : poly1 (S N) (jp a a (S N))).
  { apply (p_poly (jp a a) (A a a) (bcoef a a) (kap a a 0) (fun n => A_pos a a Ha Ha n) (jp0 a a) (jp_rec0 a a Ha Ha) (jp_recS a a Ha Ha)). }
  destruct (poly1_factor (S N) (jp a a (S N)) lam PP) as (k & K); [intros i j Hij E; apply X1 in E; lia|exact rt|].
  assert (Hk : k <> 0). { pose proof (jp_end a a Ha Ha (S N)) as E. rewrite K in E. intros ->. lra. }
  destruct (finite_choice_nat (fun i j => (j < S N)%nat /\ - lam (N - i)%nat = lam j) (S N)) as (f & Hf).
  { intros i Hi. assert (R1 : jp a a (S N) (- lam (N - i)%nat) = 0). { rewrite jp_sym by easy. rewrite rt by lia. ring. }
    rewrite K in R1. apply Rmult_integral in R1. destruct R1 as [|R1]; [easy|].
    apply rprod_zero in R1. destruct R1 as (j & Hj & E). exists j. split; [easy|lra]. }
  assert (FI : forall i, (i < S N)%nat -> f i = i).
  { apply incr_id; [intros; now apply Hf|]. intros i j Hij. destruct (Hf i ltac:(lia)) as [F1 F2]. destruct (Hf j ltac:(lia)) as [F3 F4].
    destruct (Nat.lt_total (f i) (f j)) as [|[E|E]]; [easy| |].
    - assert ((N - i)%nat = (N - j)%nat); [|lia]. apply X1; [lia|lia|]. rewrite E in F2. lra.
    - pose proof (S1 (f j) (f i) ltac:(lia)). pose proof (S1 (N - j)%nat (N - i)%nat ltac:(lia)). assert ((N - i)%nat = (N - j)%nat) by (apply X1; [lia|lia|lra]). lia. }
  intros i Hi. destruct (Hf i Hi) as [_ H]. rewrite FI in H by easy. lra.
Qed.

Lemma lgl_points eigh rj n be force : (1 <= n)%nat -> lobatto_eigh eigh 0 0 n -> lobatto_ascending eigh n -> builtin be ->
  exists xs, lgl_nodes eigh rj n be force = Ok (xs, negb force) /\ sym_points n xs.
Proof.
  intros Hn HE HS HB. unfold lgl_nodes, jgl_nodes. destruct n as [|[|M]]; [lia| |].
  - exists [-1; 1]. split; [reflexivity|]. split; [reflexivity|]. split; [reflexivity|]. split; [reflexivity|]. split.
    + intros i j Hij. replace i with 0%nat by lia. replace j with 1%nat by lia. cbn. lra.
    + intros i Hi. assert (i = 0 \/ i = 1)%nat as [-> | ->] by lia; cbn; lra.
  - cbn [Nat.eqb]. change (1 <? S (S M))%nat with true. cbv iota. replace (S (S M) - 2)%nat with M by lia.
    specialize (HE ltac:(lia)). specialize (HS ltac:(lia)). replace (S (S M) - 2)%nat with M in * by lia.
    pose proof params11 as (Ha & Hb & [[? _]|[NC E1]]); [lra|].
    unfold eigh_at, ascending in *. destruct (eigh (S M) (jg_matrix (0 + 1) (0 + 1) M)) as [lam V] eqn:EE. cbn [fst snd] in *.
    assert (EG : jacobi_gauss eigh rj (0 + 1) (0 + 1) M be true = Ok (mkQuad (negb true) 1 (map (fun x => [x]) (map lam (seq 0 (S M))))
         (map (gw (kap (0 + 1) (0 + 1) 0) V) (seq 0 (S M))) (Some (degree (2 * M + 1))))).
    { unfold jacobi_gauss. rewrite (jg_compute_ok eigh M (0 + 1) (0 + 1) lam V) by easy. destruct HB as [-> | ->]; reflexivity. }
    rewrite EG. cbn [bind q_nodes]. rewrite !map_map.
    rewrite (map_ext _ lam) by reflexivity. eexists. split; [reflexivity|].
    assert (HD : eigdec (S M) (tri (A (0 + 1) (0 + 1)) (bcoef (0 + 1) (0 + 1))) lam V) by (apply tri_eigdec; [lra|lra|lra|exact HE]).
    pose proof (jacobi_nodes_sym (0 + 1) M lam V ltac:(lra) HD HS) as SY.
    set (X1 := nodes_distinct (jp (0 + 1) (0 + 1)) (A (0 + 1) (0 + 1)) (bcoef (0 + 1) (0 + 1)) (kap (0 + 1) (0 + 1) 0) (fun n => A_pos (0 + 1) (0 + 1) Ha Ha n)
      (kap0_ne (0 + 1) (0 + 1) Ha Ha) (jp0 (0 + 1) (0 + 1)) (jp_rec0 (0 + 1) (0 + 1) Ha Ha) (jp_recS (0 + 1) (0 + 1) Ha Ha) M lam V HD).
    assert (Hin : forall i, (i < S M)%nat -> -1 < lam i < 1).
    { apply (nodes_inside (jp (0+1) (0+1)) (A (0+1) (0+1)) (bcoef (0+1) (0+1)) (kap (0+1) (0+1) 0) (fun n => A_pos (0 + 1) (0 + 1) Ha Ha n) (kap0_ne (0 + 1) (0 + 1) Ha Ha)
        (jp0 (0+1) (0+1)) (jp_rec0 (0 + 1) (0 + 1) Ha Ha) (jp_recS (0 + 1) (0 + 1) Ha Ha) (fun n => jp_end (0+1) (0+1) Ha Ha n) (fun n => jp_endm (0+1) (0+1) n Ha Ha) M lam V HD). }
    assert (Nth : forall i, (i <= M)%nat -> nth (S i) (-1 :: map lam (seq 0 (S M)) ++ [1]) 0 = lam i).
    { intros i Hi. cbn [nth]. rewrite app_nth1 by (rewrite map_length, seq_length; lia).
      rewrite (nth_indep _ 0 (lam 0%nat)) by (rewrite map_length, seq_length; lia). rewrite map_nth, seq_nth by lia. reflexivity. }
    assert (Last : nth (S (S M)) (-1 :: map lam (seq 0 (S M)) ++ [1]) 0 = 1).
    { cbn [nth]. rewrite app_nth2 by (rewrite map_length, seq_length; lia). rewrite map_length, seq_length, Nat.sub_diag. reflexivity. }
    split; [cbn [length]; rewrite app_length, map_length, seq_length; cbn; lia|].
    split; [reflexivity|]. split; [exact Last|]. split.
    + intros i j Hij. destruct j as [|j]; [lia|]. destruct (Nat.eq_dec j (S M)) as [->|].
      * rewrite Last. destruct i as [|i]; [cbn [nth]; lra|]. rewrite Nth by lia. apply Hin. lia.
      * rewrite (Nth j) by lia. destruct i as [|i]; [cbn [nth]; apply Hin; lia|]. rewrite Nth by lia.
        destruct (HS i j ltac:(lia)) as [|E]; [easy|]. apply X1 in E; lia.
    + intros i Hi. destruct i as [|i]; [rewrite Nat.sub_0_r, Last; cbn [nth]; ring|].
      destruct (Nat.eq_dec i (S M)) as [->|]; [rewrite Nat.sub_diag, Last; reflexivity|].
      replace (S (S M) - S i)%nat with (S (M - i)) by lia. rewrite !Nth by lia. apply SY. lia.
Qed.

(** ** The interpolated warp *)
Definition equi (n k : nat) : R := -1 + INR k * (2 / INR n).
Lemma equi_distinct n i j : (1 <= n)%nat -> equi n i = equi n j -> i = j.
Proof.
  intros Hn E. unfold equi in E. assert (0 < INR n) by (apply lt_0_INR; lia). apply INR_eq.
  apply Rmult_eq_reg_r with (2 / INR n); [lra|]. apply Rgt_not_eq. apply Rdiv_lt_0_compat; lra.
Qed.
Lemma equi_rev n k : (1 <= n)%nat -> (k <= n)%nat -> equi n (n - k) = - equi n k.
Proof. intros Hn Hk. unfold equi. rewrite minus_INR by easy. assert (0 < INR n) by (apply lt_0_INR; lia). field. lra. Qed.

Definition leg (k : nat) (x : R) : R := jacobi Rops 0 0 k x.
Lemma leg_jp k x : leg k x = jp 0 0 k x.
Proof. apply jacobi_jp; [lra|lra|apply jac_gamma0_pos; lra]. Qed.
Lemma leg_poly k : poly1 k (leg k).
Proof.
  apply (poly1_ext k (jp 0 0 k)); [intros; symmetry; apply leg_jp|].
  apply (p_poly (jp 0 0) (A 0 0) (bcoef 0 0) (kap 0 0 0) (fun n => A_pos 0 0 ltac:(lra) ltac:(lra) n) (jp0 0 0) (jp_rec0 0 0 ltac:(lra) ltac:(lra)) (jp_recS 0 0 ltac:(lra) ltac:(lra))).
Qed.
(** Orthonormal Legendre polynomials up to degree n are independent on n+1 distinct points. *)
Lemma leg_independent n (z c : nat -> R) : (forall i j, (i < j < S n)%nat -> z i <> z j) ->
  (forall i, (i < S n)%nat -> rsum (fun k => leg k (z i) * c k) (S n) = 0) -> forall k, (k < S n)%nat -> c k = 0.
Proof.
  intros HD HZ k Hk.
  assert (Z : forall x, rsum (fun j => leg j x * c j) (S n) = 0).
  { apply (poly1_zero n (fun x => rsum (fun j => leg j x * c j) (S n)) z); [|easy|easy].
    apply (poly1_rsum n (fun j x => leg j x * c j)). intros j Hj.
    apply (poly1_ext n (fun x => c j * leg j x)); [intros; ring|]. apply poly1_scal, (poly1_weaken j); [lia|apply leg_poly]. }
  destruct (eigdec_exists (jp 0 0) (A 0 0) (bcoef 0 0) (kap 0 0 0) (fun n => A_pos 0 0 ltac:(lra) ltac:(lra) n) (kap0_ne 0 0 ltac:(lra) ltac:(lra)) (jp0 0 0)
    (jp_rec0 0 0 ltac:(lra) ltac:(lra)) (jp_recS 0 0 ltac:(lra) ltac:(lra)) (fun n => jp_end 0 0 ltac:(lra) ltac:(lra) n) (fun n => jp_endm 0 0 n ltac:(lra) ltac:(lra)) n) as (lam & V & HE & _).
  assert (O := disc_ortho (jp 0 0) (A 0 0) (bcoef 0 0) (kap 0 0 0) (fun n => A_pos 0 0 ltac:(lra) ltac:(lra) n) (kap0_ne 0 0 ltac:(lra) ltac:(lra)) (jp0 0 0)
    (jp_rec0 0 0 ltac:(lra) ltac:(lra)) (jp_recS 0 0 ltac:(lra) ltac:(lra)) n lam V HE).
  set (w := gw (kap 0 0 0) V) in *.
  assert (E : rsum (fun i => w i * leg k (lam i) * rsum (fun j => leg j (lam i) * c j) (S n)) (S n) = c k).
  { transitivity (rsum (fun i => rsum (fun j => c j * (w i * (leg k (lam i) * leg j (lam i)))) (S n)) (S n)).
    - apply rsum_ext. intros i _. rewrite <- rsum_scal. apply rsum_ext. intros; ring.
    - rewrite rsum_swap. rewrite (rsum_ext _ (fun j => delta k j * c j)).
      + now apply rsum_delta.
      + intros j Hj. rewrite rsum_scal. rewrite (rsum_ext _ (fun i => w i * (jp 0 0 k (lam i) * jp 0 0 j (lam i)))) by (intros; now rewrite !leg_jp).
        rewrite O by easy. unfold delta. ring. }
  rewrite <- E. apply rsum_0. intros i _. rewrite Z. ring.
Qed.

Lemma wf_basis_len n : length (wf_basis_1d n) = S n.
Proof. unfold wf_basis_1d. rewrite map_length, seq_length. lia. Qed.
Lemma wf_V n xs i j : (i < length xs)%nat -> (j <= n)%nat -> V (wf_basis_1d n) (flat_nodes xs) i j = leg j (nth i xs 0).
Proof.
  intros Hi Hj. unfold V, fn, pt, wf_basis_1d, flat_nodes, valR.
  rewrite (nth_indep _ _ ((fun k p => Ok (jacobi Rops 0 0 k (nth 0 p 0))) 0%nat)) by (rewrite map_length, seq_length; lia).
  rewrite (map_nth (fun k (p : list R) => Ok (jacobi Rops 0 0 k (nth 0 p 0)))), seq_nth by lia.
  rewrite (nth_indep _ [] [0]) by (rewrite map_length; lia). rewrite (map_nth (fun x => [x])). reflexivity.
Qed.
Lemma wf_vander n xs : exists B, vandermonde (wf_basis_1d n) (flat_nodes xs) = Ok B /\ nrows B = length xs /\ ncols B = S n
  /\ forall i j, (i < length xs)%nat -> (j <= n)%nat -> ent B i j = leg j (nth i xs 0).
Proof.
  destruct (vandermonde_succeeds (wf_basis_1d n) (flat_nodes xs)) as (B & E).
  - intros f x Hf _. unfold wf_basis_1d in Hf. apply in_map_iff in Hf. destruct Hf as (k & <- & _). eauto.
  - exists B. split; [exact E|]. destruct (vandermonde_inv _ _ _ E) as (RB & CB & HB & _). rewrite wf_basis_len in *.
    unfold flat_nodes in RB, HB. rewrite map_length in RB, HB. split; [easy|]. split; [easy|].
    intros i j Hi Hj. rewrite HB by lia. apply wf_V; easy.
Qed.
Lemma linspace_len n : length (linspace_pm1 n) = S n.
Proof. unfold linspace_pm1. rewrite map_length, seq_length. lia. Qed.
Lemma linspace_nth n k : (k <= n)%nat -> nth k (linspace_pm1 n) 0 = equi n k.
Proof.
  intros Hk. unfold linspace_pm1. rewrite (nth_indep _ 0 (equi n 0)) by (rewrite map_length, seq_length; lia).
  unfold equi. rewrite (map_nth (fun i => -1 + INR i * (2 / INR n))), seq_nth by lia. reflexivity.
Qed.

Lemma warp_poly eigh rj n xs fl : (1 <= n)%nat -> lgl_nodes eigh rj n None true = Ok (xs, fl) -> length xs = S n ->
  exists g, poly1 n g /\ (forall k, (k <= n)%nat -> g (equi n k) = nth k xs 0 - equi n k)
    /\ forall outs scaled, warp_factor eigh rj n outs scaled = Ok (map (fun x => if scaled then scale_warp x (g x) else g x) outs).
Proof.
  intros Hn EX LX.
  destruct (wf_vander n (linspace_pm1 n)) as (B & EB & RB & CB & HB). rewrite linspace_len in RB, HB.
  assert (HB' : forall i j, (i <= n)%nat -> (j <= n)%nat -> ent B i j = leg j (equi n i)) by (intros i j Hi Hj; rewrite HB, linspace_nth by lia; easy).
  set (d := fun k => nth k xs 0 - equi n k).
  assert (NS : nonsing (S n) (ent B)).
  { intros c Hc k Hk. apply (leg_independent n (equi n) c); [intros i j Hij E; apply equi_distinct in E; lia| |easy].
    intros i Hi. refine (eq_trans _ (Hc i Hi)). apply rsum_ext. intros j Hj. rewrite HB' by lia. reflexivity. }
  destruct (np_solve_succeeds (A := B) (B := mkMat (S n) 1 (fun k _ => d k))) as (X & SX); [congruence|cbn; congruence|now rewrite RB|].
  destruct (np_solve_ok SX) as (_ & _ & X1 & X2 & _ & X3). rewrite RB in X1, X3. cbn [nrows ncols ent] in X2, X3.
  set (g := fun x => rsum (fun j => leg j x * ent X j 0%nat) (S n)).
  exists g. split; [|split].
  - apply (poly1_rsum n (fun j x => leg j x * ent X j 0%nat)). intros j Hj.
    apply (poly1_ext n (fun x => ent X j 0%nat * leg j x)); [intros; ring|]. apply poly1_scal, (poly1_weaken j); [lia|apply leg_poly].
  - intros k Hk. change (g (equi n k) = d k). rewrite <- (X3 k 0%nat) by lia. apply rsum_ext. intros j Hj. rewrite HB' by lia. reflexivity.
  - intros outs scaled. unfold warp_factor. rewrite EX. cbn [bind fst]. rewrite EB. cbn [bind].
    destruct (wf_vander n outs) as (Bo & EBo & RBo & CBo & HBo). rewrite EBo. cbn [bind].
    destruct (np_solve_succeeds (A := mT B) (B := mT Bo)) as (Y & SY); [cbn; congruence|cbn; congruence|cbn [mT nrows ent]; rewrite CB; now apply nonsing_tr in NS|].
    rewrite SY. cbn [bind]. destruct (np_solve_ok SY) as (_ & _ & Y1 & Y2 & _ & Y3). cbn [mT nrows ncols ent] in Y1, Y2, Y3.
    unfold mdot. cbn [mT nrows ncols col_mat ent].
    assert (LM : length (ModelFaces.map2 Rminus xs (linspace_pm1 n)) = S n) by (rewrite map2_length, linspace_len, LX; lia).
    rewrite LM, Y1, CB, Nat.eqb_refl. cbn [bind nrows ent].
    assert (W : map (fun i => rsum (fun k => ent Y k i * nth k (ModelFaces.map2 Rminus xs (linspace_pm1 n)) 0) (S n)) (seq 0 (ncols Y)) = map g outs).
    { rewrite Y2, RBo. apply nth_ext with 0 0; [now rewrite !map_length, seq_length|].
      intros i Hi. rewrite map_length, seq_length in Hi.
      rewrite (nth_indep (map g outs) 0 (g 0)) by (rewrite map_length; lia). rewrite map_nth.
      match goal with |- nth i (map ?h _) 0 = _ => rewrite (nth_indep (map h (seq 0 (length outs))) 0 (h 0%nat)) by (rewrite map_length, seq_length; lia);
        rewrite (map_nth h), seq_nth by lia end.
      cbn [Nat.add]. unfold g.
      transitivity (rsum (fun k => ent Y k i * rsum (fun j => ent B k j * ent X j 0%nat) (S n)) (S n)).
      - apply rsum_ext. intros k Hk. f_equal. rewrite X3 by lia. rewrite map2_nth by (try rewrite linspace_len; lia). rewrite linspace_nth by lia. reflexivity.
      - rewrite (rsum_assoc (fun a b => ent Y b a) (ent B) (fun j => ent X j 0%nat) i (S n) (S n)). apply rsum_ext. intros j Hj. f_equal. rewrite <- HBo by lia.
        assert (Yij := Y3 j i ltac:(lia) ltac:(lia)). rewrite CB in Yij. rewrite <- Yij. apply rsum_ext. intros; ring. }
    rewrite W. destruct scaled; [|reflexivity]. apply f_equal. unfold ModelFaces.map2. clear.
    induction outs as [|x outs IH]; [reflexivity|]. cbn [map combine]. now rewrite IH.
Qed.
(** With symmetric points the warp is an odd function. *)
Lemma warp_odd n xs g : (1 <= n)%nat -> sym_points n xs -> poly1 n g -> (forall k, (k <= n)%nat -> g (equi n k) = nth k xs 0 - equi n k) ->
  forall x, g (- x) = - g x.
Proof.
  intros Hn (_ & _ & _ & _ & SY) Hg HV x.
  assert (E : g x + g (- x) = 0); [|lra].
  apply (poly1_zero n (fun x => g x + g (- x)) (equi n)).
  - apply (poly1_plus n g (fun x => g (- x))); [easy|]. apply (poly1_ext n (fun x => g (-1 * x))); [intros; f_equal; ring|].
    replace n with (n * 1)%nat by lia. apply (poly1_comp n 1 g (fun x => -1 * x)); [now rewrite ?Nat.mul_1_r|]. apply poly1_scal, poly1_x.
  - intros i j Hij E. apply equi_distinct in E; lia.
  - intros i Hi. rewrite <- equi_rev, !HV by lia. rewrite SY, equi_rev by lia. ring.
Qed.
Lemma scale_warp_odd x w : scale_warp (- x) (- w) = - scale_warp x w.
Proof.
  unfold scale_warp. rewrite Rabs_Ropp. destruct (Rlt_bool (Rabs x) (1 - / 10 ^ 10)); cbv zeta; cbn [pow]; unfold Rdiv.
  - replace (1 - 1 * - x * (1 * - x * 1)) with (1 - 1 * x * (1 * x * 1)) by ring. ring.
  - replace (1 - 0 * - x * (0 * - x * 1)) with 1 by ring. replace (1 - 0 * x * (0 * x * 1)) with 1 by ring. rewrite Rinv_1. ring.
Qed.
