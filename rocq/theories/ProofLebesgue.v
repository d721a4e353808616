(** * Lemmas for the Lebesgue constants: the constant mode, definedness *)
From Coquelicot Require Import Coquelicot.
From Coq Require Import List Arith Bool ZArith Reals Lra Lia.
From Verif Require Import Py PyToolsModel RSum RField ModelLinAlg ProofLinAlg ModelNd ModelShapes ModelSpaces ModelNodes ModelModes ModelBasis
  ModelQuad ModelMatrices ModelModalDecay ModelLebesgue EnumFacts SpecIndex SpecPoly SpecPartial SpecSpan ProofNodeTuples ProofBasisIndex
  ProofTPCall ProofJacobi2 ProofPKDO ProofMatrices ProofMonomial ProofBasisDeriv PropsModalDecay.
Import ListNotations.
Local Open Scope R_scope.

Ltac okinj E := match type of E with Ok ?l = Ok ?fs => assert (fs = l) by congruence; subst fs; clear E end.

Definition constant_fn (f : list R -> res R) : Prop :=
  exists v, v <> 0 /\ forall x w, f x = Ok w -> w = v.

Lemma jacobi0_const a b : -1 < a -> -1 < b -> exists v, v <> 0 /\ forall x, jacobi Rops a b 0 x = v.
Proof.
  intros Ha Hb. exists (1 / sqrt (jac_gamma0 a b)). split.
  - pose proof (sqrt_lt_R0 _ (jac_gamma0_pos a b Ha Hb)). apply Rgt_not_eq. apply Rmult_lt_0_compat; [lra|]. now apply Rinv_0_lt_compat.
  - intros x. unfold jacobi. cbn [vadd vc vmul Rops]. ring.
Qed.
Lemma first_map {A} (f : list nat -> A) d n : nth_error (map f (simplex_mode_tuples d n)) 0 = Some (f (repeat 0%nat d)).
Proof. unfold simplex_mode_tuples. rewrite nth_error_map, gnitsam_first. reflexivity. Qed.
Lemma monomial_const d : constant_fn (monomial Rops (repeat 0%nat d)).
Proof.
  exists 1. split; [lra|]. intros x w. unfold monomial. rewrite repeat_length.
  destruct (Nat.eqb_spec d (length x)) as [Hd|]; [|discriminate]. intros E. 
  assert (HL : length x = length (repeat 0%nat d)) by (now rewrite repeat_length).
  pose proof (monomial_val (repeat 0%nat d) x) as HV. 
  unfold monomial in HV. rewrite repeat_length in HV. rewrite <- Hd, Nat.eqb_refl in HV. cbn [negb] in *.
  rewrite HV in E by congruence. injection E as <-. apply monoval_repeat0.
Qed.
Lemma tp_loop_const fs : Forall constant_fn fs ->
  exists v, v <> 0 /\ forall dims x n acc w, tp_call_loop Rops x n dims fs acc = Ok w -> w = acc * v.
Proof.
  induction 1 as [|f fs (v & Hv & Hf) _ (u & Hu & IH)].
  - exists 1. split; [lra|]. intros [|d dims] x n acc w E; cbn in E; [|discriminate]. injection E as <-. ring.
  - exists (v * u). split; [now apply Rmult_integral_contrapositive|]. intros [|d dims] x n acc w E; cbn in E; [discriminate|].
    destruct (f (firstn d (skipn n x))) as [r|] eqn:Er; [|discriminate]. cbn [bind] in E.
    apply IH in E. apply Hf in Er. subst. ring.
Qed.
Lemma ravelF_zeros sh : ravelF sh (repeat 0%nat (length sh)) = 0%nat.
Proof. induction sh as [|n sh IH]; cbn; [reflexivity|]. rewrite IH. lia. Qed.

(** The first function of every basis is a nonzero constant. *)
Lemma const_mode b : forall fs, functions Rops b = Ok fs ->
  exists f, nth_error fs 0 = Some f /\ constant_fn f.
Proof.
  induction b as [d n|d n|bs ds IH] using basis_ind'; intros fs E.
  - cbn [functions] in E. unfold simplex_onb_functions in E.
    destruct d as [|[|[|[|d]]]]; try discriminate; okinj E.
    + eexists. split; [reflexivity|]. exists 2. split; [lra|]. intros [|] w E; cbn in E; [|discriminate].
      injection E as <-. unfold Rops; cbn. lra.
    + eexists. split; [apply first_map|]. destruct (jacobi0_const 0 0 par0 par0) as (v & Hv & H). exists v. split; [easy|].
      intros [|x [|]] w E; cbn in E; try discriminate. injection E as <-. apply H.
    + eexists. split; [apply first_map|]. destruct (jacobi0_const 0 0 par0 par0) as (v & Hv & H).
      destruct (jacobi0_const (2 * INR 0 + 1) 0 (par2 0) par0) as (u & Hu & H').
      exists (sqrt 2 * v * u). split.
      { apply Rmult_integral_contrapositive; split; [|easy]. apply Rmult_integral_contrapositive; split; [|easy].
        apply Rgt_not_eq, sqrt_lt_R0. lra. }
      intros [|x [|y [|]]] w E; cbn [pkdo_2d_fn repeat] in E; try discriminate. injection E as <-.
      unfold pkdo_2d. cbn [rstoab]. rewrite H, H'. unfold Rops; cbn. ring.
    + eexists. split; [apply first_map|]. destruct (jacobi0_const 0 0 par0 par0) as (v & Hv & H).
      destruct (jacobi0_const (2 * INR 0 + 1) 0 (par2 0) par0) as (u & Hu & H').
      destruct (jacobi0_const (2 * (INR 0 + INR 0) + 2) 0 (par3 0 0) par0) as (t & Ht & H'').
      exists (2 * sqrt 2 * v * u * t). split.
      { assert (sqrt 2 <> 0) by (apply Rgt_not_eq, sqrt_lt_R0; lra). 
        repeat (apply Rmult_integral_contrapositive; split); try easy; lra. }
      intros [|x [|y [|z [|]]]] w E; cbn [pkdo_3d_fn repeat] in E; try discriminate. injection E as <-.
      unfold pkdo_3d. cbn [rsttoabc]. rewrite H, H', H''. unfold Rops; cbn. ring.
  - cbn [functions] in E. okinj E. eexists. split; [apply first_map|]. apply monomial_const.
  - cbn [functions] in E. destruct (mapM (functions Rops) bs) as [fss|] eqn:EM; [|discriminate].
    rewrite <- (functions_tp_eq Rops bs ds fss EM) in E || idtac.
    assert (Hc : exists p, selects fss (repeat 0%nat (length (map (@length _) fss))) p /\ Forall constant_fn p).
    { clear E. revert fss EM. induction bs as [|b bs IHb]; intros fss EM; cbn [mapM] in EM; [injection EM as <-; exists []; split; constructor|].
      destruct (functions Rops b) as [l|] eqn:El; [|discriminate]. cbn [bind] in EM.
      destruct (mapM (functions Rops) bs) as [ls|] eqn:Els; [|discriminate]. injection EM as <-.
      inversion IH as [|? ? I1 I2]; subst. destruct (I1 _ El) as (f & Hf & Cf). destruct (IHb I2 _ eq_refl) as (p & Hp & Cp).
      exists (f :: p). split; [|now constructor]. cbn [map length repeat]. now constructor. }
    destruct Hc as (p & Hp & Cp). exists (tp_call Rops ds p). split.
    + pose proof (functions_tp_eq Rops bs ds fss EM) as E2. cbn [functions] in E2. rewrite EM in E2. cbn [bind] in E, E2.
      rewrite E2 in E. injection E as <-. rewrite <- (ravelF_zeros (map (@length _) fss)) at 1.
      exact (tp_functions_nth Rops ds fss _ p Hp).
    + destruct (tp_loop_const p Cp) as (v & Hv & HL). exists v. split; [easy|]. intros x w Ew. unfold tp_call in Ew.
      destruct (negb _); [discriminate|]. apply HL in Ew. rewrite Ew. change (vc Rops 1) with 1. ring.
Qed.

(** Every function of every basis evaluates at points of the right dimension. *)
Lemma fn_defined b : wf_basis b -> forall fs, functions Rops b = Ok fs ->
  forall f x, In f fs -> length x = basis_dim b -> exists v, f x = Ok v.
Proof.
  induction b as [d n|d n|bs ds IH] using basis_ind'; intros HW fs E f x Hf Hx.
  - cbn [functions] in E. unfold simplex_onb_functions in E. cbn [basis_dim] in Hx.
    destruct d as [|[|[|[|d]]]]; try discriminate; okinj E.
    + destruct Hf as [<-|[]]. destruct x; [|discriminate]. eexists; reflexivity.
    + apply in_map_iff in Hf. destruct Hf as (id & <- & Hid). apply gnitsam_in in Hid. destruct Hid as [Hl _].
      destruct (nlen1 _ Hl) as (i & ->). destruct (len1 _ Hx) as (r & ->). eexists; reflexivity.
    + apply in_map_iff in Hf. destruct Hf as (id & <- & Hid). apply gnitsam_in in Hid. destruct Hid as [Hl _].
      destruct (nlen2 _ Hl) as (i & j & ->). destruct (len2 _ Hx) as (r & s & ->). eexists; reflexivity.
    + apply in_map_iff in Hf. destruct Hf as (id & <- & Hid). apply gnitsam_in in Hid. destruct Hid as [Hl _].
      destruct (nlen3 _ Hl) as (i & j & k & ->). destruct (len3 _ Hx) as (r & s & t & ->). eexists; reflexivity.
  - cbn [functions] in E. okinj E. apply in_map_iff in Hf. destruct Hf as (id & <- & Hid).
    apply gnitsam_in in Hid. destruct Hid as [Hl _]. cbn [basis_dim] in Hx. eexists. apply monomial_val. congruence.
  - inversion HW as [| |bs' HWs EE]; subst. cbn [basis_dim] in Hx.
    destruct (mapM (functions Rops) bs) as [fss|] eqn:EM; [|cbn [functions] in E; rewrite EM in E; discriminate].
    rewrite (functions_tp_eq Rops bs _ fss EM) in E. injection E as <-. unfold tp_functions in Hf.
    apply in_map_iff in Hf. destruct Hf as (idx & <- & Hi). apply enumF_in in Hi. destruct (selects_exists _ _ Hi) as (p & Hp).
    rewrite (selects_parts _ _ _ Hp).
    assert (BV : exists xs vs, x = concat xs /\ block_values (map basis_dim bs) p xs vs).
    { clear Hi HW. revert fss idx p x EM Hp Hx. induction bs as [|b bs IHb]; intros fss idx p x EM Hp Hx; cbn [mapM] in EM.
      - injection EM as <-. inversion Hp; subst. exists [], []. destruct x; [|discriminate]. split; [reflexivity|constructor].
      - destruct (functions Rops b) as [l|] eqn:El; [|discriminate]. cbn [bind] in EM.
        destruct (mapM (functions Rops) bs) as [ls|] eqn:Els; [|discriminate]. injection EM as <-.
        inversion IH as [|? ? I1 I2]; subst. inversion HWs as [|? ? W1 W2]; subst. inversion Hp as [|? ? i digits a parts Ha Hps]; subst.
        cbn [map] in Hx. change (sum_nat (basis_dim b :: map basis_dim bs)) with (basis_dim b + sum_nat (map basis_dim bs))%nat in Hx.
        destruct (IHb I2 W2 ls digits parts (skipn (basis_dim b) x) eq_refl Hps) as (xs & vs & Ex & BV); [rewrite skipn_length; lia|].
        destruct (I1 W1 _ El a (firstn (basis_dim b) x)) as (v & Ev); [now apply nth_error_In in Ha|rewrite firstn_length; lia|].
        exists (firstn (basis_dim b) x :: xs), (v :: vs). split.
        + cbn [concat]. rewrite <- Ex. symmetry. apply firstn_skipn.
        + cbn [map]. constructor; [rewrite firstn_length; lia|easy|easy]. }
    destruct BV as (xs & vs & -> & BV). eexists. exact (tp_call_R _ _ _ _ BV).
Qed.
Lemma basis_defined s sh b fs xs : basis_for_space s sh = Ok b -> wf_basis b -> basis_dim b = spatial_dim s ->
  functions Rops b = Ok fs -> (forall x, In x xs -> length x = spatial_dim s) -> defined_on fs xs.
Proof. intros _ HW HD E H f x Hf Hx. apply (fn_defined b HW fs E f x Hf). rewrite HD. now apply H. Qed.
