(** * Property C31: Lebesgue constants *)
From Coquelicot Require Import Coquelicot.
From Coq Require Import List Arith Bool ZArith Reals Lra Lia.
From Verif Require Import Py PyToolsModel RSum RField ModelLinAlg ProofLinAlg ModelNd ModelShapes ModelSpaces ModelNodes ModelModes ModelBasis
  ModelQuad ModelMatrices ModelLebesgue EnumFacts SpecIndex SpecPoly SpecPartial SpecSpan ProofNodeTuples ProofBasisIndex
  ProofMatrices ProofJacobi2 ProofPKDO ProofBasisDeriv PropsBasis ProofModalDecay PropsModalDecay ProofLebesgue.
Import ListNotations.
Local Open Scope R_scope.

Lemma rsum_abs f n : Rabs (rsum f n) <= rsum (fun k => Rabs (f k)) n.
Proof.
  induction n as [|n IH]; cbn [rsum]; [rewrite Rabs_R0; lra|]. eapply Rle_trans; [apply Rabs_triang|]. lra.
Qed.
Lemma rsum_le f g n : (forall k, (k < n)%nat -> f k <= g k) -> rsum f n <= rsum g n.
Proof. induction n as [|n IH]; intros H; cbn [rsum]; [lra|]. assert (rsum f n <= rsum g n) by (apply IH; intros; apply H; lia). specialize (H n ltac:(lia)). lra. Qed.
Lemma np_max_spec l m : np_max l = Ok m -> In m l /\ forall x, In x l -> x <= m.
Proof.
  destruct l as [|a l]; [discriminate|]. cbn [np_max]. intros E. injection E as <-. revert a.
  induction l as [|b l IH]; intros a; cbn [fold_left].
  - split; [now left|]. intros x [<-|[]]. lra.
  - destruct (IH (Rmax a b)) as [H1 H2]. split.
    + destruct H1 as [H1|H1]; [|right; now right]. rewrite <- H1. unfold Rmax. destruct (Rle_dec a b); [right; now left|now left].
    + intros x [<-|[<-|Hx]].
      * eapply Rle_trans; [apply Rmax_l|]. apply H2. now left.
      * eapply Rle_trans; [apply Rmax_r|]. apply H2. now left.
      * apply H2. now right.
Qed.

(** The lattice of sample points of the estimate. *)
Definition sample_points (n : nat) (sh : shape) (ys : list (list R)) : Prop :=
  exists hs ts, let N := ((if shape_dim sh =? 2 then 30 else 10) * n)%nat in
    space_for_shape sh (OInt N) = Ok hs /\ node_tuples_for_space hs = Ok ts
    /\ ys = map (map (fun t => 2 * (INR t / INR N) - 1)) ts.
(** The functions of the default basis of order [n] on the shape. *)
Definition shape_functions (n : nat) (sh : shape) (fs : list (list R -> res R)) : Prop :=
  exists sp b, space_for_shape sh (OInt n) = Ok sp /\ basis_for_space sp sh = Ok b /\ functions Rops b = Ok fs.

Lemma estimate_inv n dim nodes sh L : estimate_lebesgue_constant n dim nodes sh = Ok L ->
  exists fs ys E, shape_functions n sh fs /\ sample_points n sh ys /\ shape_dim sh = dim
    /\ defined_on fs nodes /\ defined_on fs ys /\ length fs = length nodes /\ independent_on fs nodes
    /\ (forall p j, (p < length ys)%nat -> (j < length fs)%nat ->
          rsum (fun i => E p i * fn fs j (pt nodes i)) (length nodes) = fn fs j (pt ys p))
    /\ (exists p, (p < length ys)%nat /\ L = rsum (fun i => Rabs (E p i)) (length nodes))
    /\ forall p, (p < length ys)%nat -> rsum (fun i => Rabs (E p i)) (length nodes) <= L.
Proof.
  unfold estimate_lebesgue_constant. destruct (Nat.eqb_spec (shape_dim sh) dim) as [Hd|]; [|discriminate]. cbn [negb].
  unfold evaluate_lebesgue_function. destruct (space_for_shape sh (OInt n)) as [sp|] eqn:E1; [|discriminate]. cbn [bind].
  destruct (space_for_shape sh (OInt (lebesgue_huge_n n sh))) as [hs|] eqn:E2; [|discriminate]. cbn [bind].
  destruct (basis_for_space sp sh) as [b|] eqn:E3; [|discriminate]. cbn [bind].
  destruct (node_tuples_for_space hs) as [ts|] eqn:E4; [|discriminate]. cbn [bind].
  destruct (negb (spatial_dim hs =? dim)%nat); [discriminate|].
  destruct (functions Rops b) as [fs|] eqn:E5; [|discriminate]. cbn [bind].
  set (ys := lebesgue_equi_nodes (lebesgue_huge_n n sh) ts).
  destruct (vandermonde fs nodes) as [A|] eqn:E6; [|discriminate]. cbn [bind].
  destruct (vandermonde fs ys) as [B|] eqn:E7; [|discriminate]. cbn [bind].
  destruct (np_solve (mT A) (mT B)) as [X|] eqn:E8; [|discriminate]. cbn [bind fst]. intros EL.
  destruct (vandermonde_inv _ _ _ E6) as (RA & CA & HA & DA). destruct (vandermonde_inv _ _ _ E7) as (RB & CB & HB & DB).
  destruct (np_solve_ok E8) as (S1 & S2 & S3 & S4 & S5 & S6). cbn [mT nrows ncols ent] in S1, S2, S3, S4, S5, S6.
  assert (LF : length fs = length nodes) by exact (eq_trans (eq_sym CA) (eq_trans S1 RA)).
  exists fs, ys, (fun p i => ent X i p). split; [exists sp, b; auto|]. split.
  { exists hs, ts. cbv zeta. split; [exact E2|]. split; [exact E4|]. unfold ys, lebesgue_equi_nodes, lebesgue_huge_n.
    apply map_ext. intros t. apply map_ext. intros k. ring. }
  split; [easy|]. split; [easy|]. split; [easy|]. split; [easy|]. split.
  { apply (nonsing_V fs nodes A E6 LF). rewrite CA in S5. rewrite RA, <- LF. now apply nonsing_tr. }
  assert (EV : forall p j, (p < length ys)%nat -> (j < length fs)%nat ->
          rsum (fun i => ent X i p * fn fs j (pt nodes i)) (length nodes) = fn fs j (pt ys p)).
  { intros p j Hp Hj. rewrite CA in S6. specialize (S6 j p Hj ltac:(now rewrite RB)). rewrite HB in S6 by easy.
    change (V fs ys p j) with (fn fs j (pt ys p)) in S6. rewrite <- S6, <- LF. apply rsum_ext. intros i Hi. rewrite HA by (try easy; congruence).
    change (V fs nodes i j) with (fn fs j (pt nodes i)). ring. }
  split; [exact EV|].
  apply np_max_spec in EL. destruct EL as [H1 H2]. cbn [mT nrows ncols ent] in H1, H2.
  pose proof (eq_trans CA LF) as CA'. rewrite S3, CA', S4, RB in H1. rewrite S3, CA', S4, RB in H2. split.
  - apply in_map_iff in H1. destruct H1 as (p & <- & Hp). apply in_seq in Hp. exists p. split; [lia|reflexivity].
  - intros p Hp. apply H2. apply in_map_iff. exists p. split; [reflexivity|]. apply in_seq. lia.
Qed.
Lemma interp_at E fs nodes ys c p : (p < length ys)%nat ->
  (forall j, (j < length fs)%nat -> rsum (fun i => E p i * fn fs j (pt nodes i)) (length nodes) = fn fs j (pt ys p)) ->
  lin fs c (pt ys p) = rsum (fun i => E p i * lin fs c (pt nodes i)) (length nodes).
Proof.
  intros Hp H. unfold lin. rewrite (rsum_ext (fun j => c j * fn fs j (pt ys p))
    (fun j => rsum (fun i => E p i * fn fs j (pt nodes i)) (length nodes) * c j)) by (intros j Hj; rewrite H by easy; ring).
  rewrite <- (rsum_assoc (fun _ i => E p i) (fun i j => fn fs j (pt nodes i)) c 0 (length nodes) (length fs)).
  apply rsum_ext. intros i Hi. f_equal. apply rsum_ext. intros; ring.
Qed.

(** The estimate bounds the interpolant of all nodal data at all sample points,
    and it is the best such bound. *)
Theorem C31_bound n dim nodes sh L : (1 <= n)%nat -> estimate_lebesgue_constant n dim nodes sh = Ok L ->
  exists fs ys, shape_functions n sh fs /\ sample_points n sh ys /\ unisolvent fs nodes
    /\ (forall c B y, In y ys -> (forall x, In x nodes -> Rabs (lin fs c x) <= B) -> Rabs (lin fs c y) <= L * B)
    /\ exists c y, In y ys /\ (forall x, In x nodes -> Rabs (lin fs c x) <= 1) /\ lin fs c y = L.
Proof.
  intros _ EL. destruct (estimate_inv _ _ _ _ _ EL) as (fs & ys & E & H1 & H2 & Hd & D1 & D2 & LF & HI & HE & (p & Hp & ->) & HL).
  exists fs, ys. split; [easy|]. split; [easy|]. split; [now split|]. split.
  - intros c B y Hy HB. destruct (in_pt _ _ Hy) as (q & Hq & ->). rewrite (interp_at E fs nodes ys c q Hq) by (intros; now apply HE).
    eapply Rle_trans; [apply rsum_abs|].
    eapply Rle_trans; [apply (rsum_le _ (fun i => B * Rabs (E q i)))|].
    + intros i Hi. rewrite Rabs_mult. rewrite Rmult_comm. apply Rmult_le_compat_r; [apply Rabs_pos|]. now apply HB, pt_in.
    + rewrite rsum_scal. rewrite Rmult_comm. 
      destruct (length nodes) as [|k] eqn:Ek.
      { cbn [rsum]. specialize (HL q Hq). cbn [rsum] in HL. lra. }
      apply Rmult_le_compat_r; [|now apply HL]. eapply Rle_trans; [apply Rabs_pos|]. apply (HB (pt nodes 0)). apply pt_in. lia.
  - destruct (vandermonde_succeeds _ _ D1) as (A & EA). destruct (vandermonde_inv _ _ _ EA) as (RA & CA & HA & _).
    destruct (@np_inv_succeeds A) as (X & EX); [exact (eq_trans RA (eq_sym (eq_trans CA LF)))|now apply (nonsing_V _ _ _ EA LF)|].
    destruct (np_inv_ok EX) as (_ & _ & _ & _ & X1 & _). rewrite RA in X1.
    set (sg := fun i => if Rle_dec 0 (E p i) then 1 else -1).
    set (c := fun j => rsum (fun i => ent X j i * sg i) (length nodes)).
    assert (HC : forall i, (i < length nodes)%nat -> lin fs c (pt nodes i) = sg i).
    { intros i Hi. rewrite <- lin_V. rewrite (rsum_ext _ (fun j => ent A i j * c j)) by (intros j Hj; now rewrite HA).
      unfold c. rewrite LF, rsum_assoc. rewrite (rsum_ext _ (fun k => delta i k * sg k)).
      - now apply rsum_delta.
      - intros k Hk. f_equal. now rewrite X1. }
    exists c, (pt ys p). split; [now apply pt_in|]. split.
    + intros x Hx. destruct (in_pt _ _ Hx) as (i & Hi & ->). rewrite HC by easy. unfold sg. destruct (Rle_dec 0 (E p i)).
      * rewrite Rabs_R1. lra.
      * rewrite Rabs_left by lra. lra.
    + rewrite (interp_at E fs nodes ys c p Hp) by (intros; now apply HE). apply rsum_ext. intros i Hi. rewrite HC by easy.
      unfold sg. destruct (Rle_dec 0 (E p i)); [rewrite Rabs_right by lra; ring|rewrite Rabs_left by lra; ring].
Qed.
(** It is at least one: constants are in the span of every default basis. *)
Theorem C31_at_least_one n dim nodes sh L : (1 <= n)%nat -> estimate_lebesgue_constant n dim nodes sh = Ok L -> 1 <= L.
Proof.
  intros _ EL. destruct (estimate_inv _ _ _ _ _ EL) as (fs & ys & E & (sp & b & _ & _ & Eb) & H2 & Hd & D1 & D2 & LF & HI & HE & (p & Hp & _) & HL).
  destruct (const_mode b fs Eb) as (f & Hf & v & Hv & Hc).
  assert (F0 : forall xs x, defined_on fs xs -> In x xs -> fn fs 0 x = v).
  { intros xs x HD Hx. unfold fn. rewrite (nth_error_nth _ _ _ Hf). destruct (HD f x (nth_error_In _ _ Hf) Hx) as (w & Ew).
    unfold valR. rewrite Ew. now apply Hc in Ew. }
  assert (H0 : (0 < length fs)%nat) by (destruct fs; [discriminate Hf|cbn; lia]).
  specialize (HE p 0%nat Hp H0). rewrite (F0 ys) in HE by (try easy; now apply pt_in).
  rewrite (rsum_ext _ (fun i => v * E p i)) in HE.
  2:{ intros i Hi. rewrite (F0 nodes) by (try easy; now apply pt_in). ring. }
  rewrite rsum_scal in HE. assert (S1 : rsum (fun i => E p i) (length nodes) = 1).
  { apply (Rmult_eq_reg_l v); [|easy]. rewrite Rmult_1_r. exact HE. }
  eapply Rle_trans; [|now apply (HL p)]. rewrite <- S1. eapply Rle_trans; [apply Rle_abs|]. apply rsum_abs.
Qed.
(** The estimate is defined for every unisolvent node set on a simplex. *)
Theorem C31_defined n d nodes fs : shape_functions n (Simplex d) fs ->
  (forall x, In x nodes -> length x = d) -> unisolvent fs nodes ->
  exists L, estimate_lebesgue_constant n d nodes (Simplex d) = Ok L.
Proof.
  intros (sp & b & E1 & E3 & E5) HN [LF HI]. unfold estimate_lebesgue_constant. cbn [shape_dim]. rewrite Nat.eqb_refl. cbn [negb].
  unfold evaluate_lebesgue_function. rewrite E1. cbn [bind]. set (N := lebesgue_huge_n n (Simplex d)).
  cbn [space_for_shape bind]. rewrite E3. cbn [bind node_tuples_for_space spatial_dim]. rewrite Nat.eqb_refl. cbn [negb].
  rewrite E5. cbn [bind]. cbn [space_for_shape] in E1. injection E1 as <-.
  destruct (C24_constructors (PN d n) (Simplex d) b ltac:(auto)) as [HW HDm].
  assert (D1 : defined_on fs nodes) by (eapply basis_defined; eauto).
  set (ys := lebesgue_equi_nodes N (gnitsam N d)).
  assert (D2 : defined_on fs ys).
  { eapply basis_defined; eauto. intros x Hx. unfold ys, lebesgue_equi_nodes in Hx. apply in_map_iff in Hx.
    destruct Hx as (t & <- & Ht). rewrite map_length. now apply gnitsam_in in Ht. }
  destruct (vandermonde_succeeds _ _ D1) as (A & EA). destruct (vandermonde_succeeds _ _ D2) as (B & EB).
  rewrite EA. cbn [bind]. rewrite EB. cbn [bind].
  destruct (vandermonde_inv _ _ _ EA) as (RA & CA & HA & _). destruct (vandermonde_inv _ _ _ EB) as (RB & CB & HB & _).
  destruct (@np_solve_succeeds (mT A) (mT B)) as (X & EX); cbn [mT nrows ncols ent].
  { exact (eq_trans (eq_trans CA LF) (eq_sym RA)). }
  { congruence. }
  { rewrite (eq_trans CA LF), <- RA. apply nonsing_tr. now apply (nonsing_V _ _ _ EA LF). }
  rewrite EX. cbn [bind fst]. destruct (np_solve_ok EX) as (_ & _ & _ & S4 & _ & _). cbn [mT nrows ncols] in S4.
  cbn [mT nrows ncols ent]. rewrite S4, RB.
  assert (LY : (0 < length ys)%nat).
  { unfold ys, lebesgue_equi_nodes. rewrite map_length. pose proof (gnitsam_first N d) as G. destruct (gnitsam N d); [discriminate|cbn; lia]. }
  destruct (length ys) as [|k]; [lia|]. cbn [seq map np_max]. eexists. reflexivity.
Qed.
Theorem C31_dimension n dim nodes sh : shape_dim sh <> dim -> estimate_lebesgue_constant n dim nodes sh = Err ValueError.
Proof. intros H. unfold estimate_lebesgue_constant. now rewrite (proj2 (Nat.eqb_neq _ _) H). Qed.

(** The end points of the interval are unisolvent for order one. *)
Example C31_example : exists fs, shape_functions 1 (Simplex 1) fs /\ (forall x, In x [[-1]; [1]] -> length x = 1%nat)
  /\ unisolvent fs [[-1]; [1]].
Proof.
  eexists. split; [exists (PN 1 1), (SimplexONB 1 1); repeat split; reflexivity|]. split.
  { intros x [<-|[<-|[]]]; reflexivity. }
  split; [reflexivity|]. intros c Hc k Hk.
  destruct (jacobi0_const 0 0 par0 par0) as (v & Hv & H0).
  assert (G : 0 < sqrt (jac_gamma1 0 0)).
  { apply sqrt_lt_R0. unfold jac_gamma1. pose proof (jac_gamma0_pos 0 0 par0 par0). apply Rmult_lt_0_compat; [lra|easy]. }
  assert (H1 : forall x, jacobi Rops 0 0 1 x = x / sqrt (jac_gamma1 0 0)).
  { intros x. unfold jacobi. cbn [jac_loop]. unfold Rops. cbn. field. lra. }
  assert (HL : forall x, lin [pkdo_1d Rops [0%nat]; pkdo_1d Rops [1%nat]] c [x] = c 0%nat * v + c 1%nat * (x / sqrt (jac_gamma1 0 0))).
  { intros x. unfold lin. cbn [length rsum]. unfold fn. cbn [nth]. unfold valR. cbn [pkdo_1d]. rewrite H0, H1. ring. }
  assert (A := Hc [-1] ltac:(now left)). assert (B := Hc [1] ltac:(right; now left)).
  change (lin [pkdo_1d Rops [0%nat]; pkdo_1d Rops [1%nat]] c [-1] = 0) in A.
  change (lin [pkdo_1d Rops [0%nat]; pkdo_1d Rops [1%nat]] c [1] = 0) in B.
  rewrite HL in A, B. assert (C0 : c 0%nat * v = 0) by (unfold Rdiv in *; lra).
  assert (C1 : c 1%nat * (1 / sqrt (jac_gamma1 0 0)) = 0) by lra.
  apply Rmult_integral in C0. apply Rmult_integral in C1.
  assert (1 / sqrt (jac_gamma1 0 0) <> 0) by (apply Rgt_not_eq, Rmult_lt_0_compat; [lra|now apply Rinv_0_lt_compat]).
  cbn in Hk. destruct k as [|[|k]]; [tauto|tauto|lia].
Qed.
(** So the estimator matrix of C46 for this element is covered as well. *)
Example C46_example2 : exists fs, onb_dims 0 3 (SimplexONB 1 1) /\ tp_nonempty (SimplexONB 1 1)
  /\ functions Rops (SimplexONB 1 1) = Ok fs /\ defined_on fs [[-1]; [1]] /\ unisolvent fs [[-1]; [1]].
Proof.
  destruct C31_example as (fs & (sp & b & E1 & E2 & E3) & HL & HU). cbn in E1. injection E1 as <-. cbn in E2. injection E2 as <-.
  exists fs. split; [constructor; lia|]. split; [constructor|]. split; [easy|]. split; [|easy].
  intros f x Hf Hx. apply (fn_defined (SimplexONB 1 1) ltac:(constructor) fs E3 f x Hf). now apply HL.
Qed.

Print Assumptions C31_bound.
Print Assumptions C31_at_least_one.
Print Assumptions C31_defined.
Print Assumptions C31_dimension.
