(** * C59: the strip map *)
From Coquelicot Require Import Coquelicot.
From Coq Require Import List Arith Bool ZArith QArith Reals Lra Lia.
From Verif Require Import Py RSum ModelNd ModelShapes ModelNodes ModelModes ModelQuad ModelGauss ModelTransplanted.
From Verif Require Import ProofMonomial SpecPoly ProofQuad ProofBetaReal ProofCheb ProofTransplanted SpecElliptic PropsTransplanted.
Import ListNotations.
Local Open Scope R_scope.

Lemma artanh_derive y : -1 < y < 1 -> is_derive artanh y (/ (1 - y ^ 2)).
Proof.
  intros H. unfold artanh. assert (0 < 1 - y) by lra. assert (0 < 1 + y) by lra. auto_derive.
  - split; [lra|]. split; [|easy]. apply Rdiv_lt_0_compat; lra.
  - field. repeat split; nra.
Qed.
Lemma artanh_odd y : -1 < y < 1 -> artanh (- y) = - artanh y.
Proof.
  intros H. unfold artanh. replace ((1 + - y) / (1 - - y)) with (/ ((1 + y) / (1 - y))) by (field; lra). rewrite ln_Rinv by (apply Rdiv_lt_0_compat; lra). unfold Rdiv. ring.
Qed.
Lemma artanh_pos y : 0 < y < 1 -> 0 < artanh y.
Proof.
  intros H. unfold artanh. assert (0 < ln ((1 + y) / (1 - y))); [|lra]. rewrite <- ln_1. apply ln_increasing; [lra|]. apply (Rmult_lt_reg_r (1 - y)); [lra|]. unfold Rdiv. rewrite Rmult_assoc, Rinv_l by lra. lra.
Qed.
Lemma artanh_incr x y : -1 < x -> x < y -> y < 1 -> artanh x < artanh y.
Proof.
  intros. apply (incr_of_derive artanh (fun z => / (1 - z ^ 2)) x y); try lra; intros z Hz; [apply artanh_derive; lra|]. apply Rinv_0_lt_compat. nra.
Qed.
Lemma root4 m : 0 < m < 1 -> 0 < sqrt (sqrt m) < 1 /\ sqrt (sqrt m) * sqrt (sqrt m) = sqrt m.
Proof.
  intros H. assert (0 < sqrt m) by (apply sqrt_lt_R0; lra). assert (sqrt m < 1) by (rewrite <- sqrt_1; apply sqrt_lt_1; lra).
  split; [split; [now apply sqrt_lt_R0|]|apply sqrt_sqrt; lra]. rewrite <- sqrt_1. apply sqrt_lt_1; lra.
Qed.

Section Strip.
  Context (m : R) (Hm : 0 < m < 1) (am : R -> R) (A : is_amplitude m am).
  Definition om (x : R) : R := 2 * Kell m * asin x / PI.
  Definition stg (x : R) : R := artanh (sqrt (sqrt m) * sin (am (om x))) / artanh (sqrt (sqrt m)).
  Definition stgp (x : R) : R := 2 * Kell m * sqrt (sqrt m) * cos (am (om x)) * sqrt (1 - m * sin (am (om x)) ^ 2)
    / (PI * sqrt (1 - x ^ 2) * (1 - sqrt m * sin (am (om x)) ^ 2) * artanh (sqrt (sqrt m))).
  Let Hm' : 0 <= m < 1 := conj (Rlt_le _ _ (proj1 Hm)) (proj2 Hm).
  Lemma om_range x : -1 < x < 1 -> - Kell m < om x < Kell m.
  Proof.
    intros H. pose proof (asin_bound_lt x H) as B. pose proof PI_RGT_0 as P. pose proof (Kell_pos m Hm') as K. unfold om.
    assert (E : 2 * Kell m * asin x / PI = Kell m * (asin x / (PI / 2))) by (field; lra). rewrite E.
    assert (-1 < asin x / (PI / 2) < 1); [|nra]. assert (E2 : asin x / (PI / 2) * (PI / 2) = asin x) by (field; lra). split; apply (Rmult_lt_reg_r (PI / 2)); rewrite ?E2; lra.
  Qed.
  Lemma sn_arg v : -1 < sqrt (sqrt m) * sin v < 1.
  Proof. destruct (root4 m Hm) as [[R1 R2] _]. pose proof (SIN_bound v). nra. Qed.
  Lemma one_minus v : 0 < 1 - sqrt m * sin v ^ 2.
  Proof. destruct (root4 m Hm) as [_ <-]. pose proof (sn_arg v). replace (sqrt (sqrt m) * sqrt (sqrt m) * sin v ^ 2) with ((sqrt (sqrt m) * sin v) ^ 2) by ring. nra. Qed.
  Lemma stgp_pos x : -1 < x < 1 -> 0 < stgp x.
  Proof.
    intros H. pose proof (am_half m Hm' am A (om x) (om_range x H)) as B. destruct (root4 m Hm) as [[R1 R2] _]. pose proof (Kell_pos m Hm'). pose proof PI_RGT_0. pose proof (artanh_pos _ (conj R1 R2)).
    pose proof (one_minus (am (om x))). assert (0 < sqrt (1 - x ^ 2)) by (apply sqrt_lt_R0; nra). pose proof (sqrt_rad m Hm' (am (om x))) as [Q _]. pose proof (cos_gt_0 (am (om x)) ltac:(lra) ltac:(lra)).
    unfold stgp. apply Rdiv_lt_0_compat.
    - do 4 (apply Rmult_lt_0_compat; [|assumption]). lra.
    - do 3 (apply Rmult_lt_0_compat; [|assumption]). assumption.
  Qed.
  Lemma stg_derive x : -1 < x < 1 -> is_derive stg x (stgp x).
  Proof.
    intros H. destruct (root4 m Hm) as [[R1 R2] RR]. pose proof (artanh_pos _ (conj R1 R2)) as AP. pose proof (sn_arg (am (om x))) as SA. pose proof (one_minus (am (om x))) as OM.
    assert (0 < sqrt (1 - x ^ 2)) by (apply sqrt_lt_R0; nra). pose proof PI_RGT_0. set (c := sqrt (sqrt m)) in *.
    assert (D1 : is_derive om x (2 * Kell m / PI * (1 / sqrt (1 - x ^ 2)))).
    { apply (is_derive_ext (fun y => 2 * Kell m / PI * asin y)); [intros t; unfold om; change (2 * Kell m / PI * asin t = 2 * Kell m * asin t / PI); field; lra|]. apply @is_derive_scal. now apply asin_derive. }
    assert (D2 := is_derive_comp (fun v => sin (am v)) om x _ _ (sn_derive m Hm' am A (om x)) D1).
    assert (D3 := @is_derive_scal (fun y => sin (am (om y))) x c _ D2).
    assert (D4 := is_derive_comp artanh (fun y => c * sin (am (om y))) x _ _ (artanh_derive _ SA) D3).
    assert (D5 := @is_derive_scal (fun y => artanh (c * sin (am (om y)))) x (/ artanh c) _ D4).
    apply (is_derive_ext (fun y => / artanh c * artanh (c * sin (am (om y))))); [intros t; unfold stg; fold c; change (/ artanh c * artanh (c * sin (am (om t))) = artanh (c * sin (am (om t))) / artanh c); unfold Rdiv; ring|].
    match type of D5 with is_derive _ _ ?v => replace (stgp x) with v; [exact D5|] end.
    unfold stgp. fold c. unfold Hierarchy.scal. cbn. unfold mult. cbn. rewrite <- RR in OM |- *. cbn [pow] in OM, H0. rewrite !Rmult_1_r in *.
    field. repeat split; lra.
  Qed.
  Lemma stg_odd x : stg (- x) = - stg x.
  Proof.
    unfold stg, om. rewrite asin_opp. replace (2 * Kell m * - asin x / PI) with (- (2 * Kell m * asin x / PI)) by (unfold Rdiv; ring).
    rewrite (am_odd m Hm' am A), sin_neg, <- Ropp_mult_distr_r, artanh_odd by apply sn_arg. unfold Rdiv. ring.
  Qed.
  Lemma stg_incr x y : -1 < x -> x < y -> y < 1 -> stg x < stg y.
  Proof.
    intros. apply (incr_of_derive stg stgp x y); try lra; intros z Hz; [apply stg_derive; lra|apply stgp_pos; lra].
  Qed.
  Lemma stg_lim : filterlim stg (at_left 1) (locally 1).
  Proof.
    destruct asin_lim as [_ L]. destruct (root4 m Hm) as [[R1 R2] RR]. pose proof (artanh_pos _ (conj R1 R2)) as AP. pose proof PI_RGT_0 as P.
    set (h := fun t => artanh (sqrt (sqrt m) * sin (am (2 * Kell m * t / PI))) / artanh (sqrt (sqrt m))).
    assert (V : h (PI / 2) = 1).
    { unfold h. replace (2 * Kell m * (PI / 2) / PI) with (Kell m) by (field; lra). rewrite (am_K m Hm' am A), sin_PI2, Rmult_1_r. field. lra. }
    apply (filterlim_ext (fun x => h (asin x))); [reflexivity|]. apply (filterlim_comp _ _ _ asin h (at_left 1) (locally (PI / 2)) (locally 1) L).
    rewrite <- V. change (continuous h (PI / 2)). unfold h, Rdiv. apply (continuous_mult (fun t => artanh (sqrt (sqrt m) * sin (am (2 * Kell m * t * / PI)))) (fun _ => / artanh (sqrt (sqrt m)))); [|apply continuous_const].
    apply (continuous_comp (fun t => sqrt (sqrt m) * sin (am (2 * Kell m * t * / PI))) artanh).
    - apply (@continuous_mult _ _ (fun _ => sqrt (sqrt m)) (fun t => sin (am (2 * Kell m * t * / PI)))); [apply continuous_const|].
      apply (continuous_comp (fun t => am (2 * Kell m * t * / PI)) sin); [|apply (@ex_derive_continuous _ R_NormedModule); exists (cos (am (2 * Kell m * (PI * / 2) * / PI))); apply is_derive_sin].
      apply (continuous_comp (fun t => 2 * Kell m * t * / PI) am); [|apply continuity_pt_filterlim; apply (am_cont m Hm' am A)].
      apply (@ex_derive_continuous _ R_NormedModule). auto_derive. easy.
    - apply (@ex_derive_continuous _ R_NormedModule). eexists. apply artanh_derive. apply sn_arg.
  Qed.
  Lemma stg_lim' : filterlim stg (at_right (-1)) (locally (-1)).
  Proof.
    apply (filterlim_ext (fun x => - stg (- x))); [intros x; rewrite stg_odd; change (- - stg x = stg x); ring|].
    change (-1) with (- (1)) at 2. apply (filterlim_comp _ _ _ (fun x => stg (- x)) Ropp (at_right (-1)) (locally 1)); [|apply (filterlim_opp 1)].
    apply (filterlim_comp _ _ _ Ropp stg (at_right (-1)) (at_left 1)); [|exact stg_lim].
    intros Q [e He]. exists e. intros y Hy L. apply He; [|lra]. unfold ball in *. cbn in *. unfold AbsRing_ball, abs, minus, plus, opp in *. cbn in *. replace (- y + - (1)) with (- (y + - -1)) by ring. now rewrite Rabs_Ropp.
  Qed.
  Lemma stgp_cont x : -1 < x < 1 -> continuous stgp x.
  Proof.
    intros H. destruct (root4 m Hm) as [[R1 R2] RR]. pose proof (artanh_pos _ (conj R1 R2)) as AP. pose proof (one_minus (am (om x))) as OM. pose proof PI_RGT_0 as P.
    assert (0 < sqrt (1 - x ^ 2)) by (apply sqrt_lt_R0; nra).
    assert (CA : continuous (fun y => am (om y)) x).
    { apply (continuous_comp om am); [|apply continuity_pt_filterlim; apply (am_cont m Hm' am A)]. apply (@ex_derive_continuous _ R_NormedModule). eexists.
      apply (is_derive_ext (fun y => 2 * Kell m / PI * asin y)); [intros t; unfold om; change (2 * Kell m / PI * asin t = 2 * Kell m * asin t / PI); field; lra|]. apply @is_derive_scal. now apply asin_derive. }
    set (N := fun a => 2 * Kell m * sqrt (sqrt m) * cos a * sqrt (1 - m * sin a ^ 2) / (1 - sqrt m * sin a ^ 2)).
    apply (continuous_ext_loc stgp (fun y => N (am (om y)) * (/ (PI * sqrt (1 - y ^ 2) * artanh (sqrt (sqrt m)))))).
    - exists (mkposreal ((1 - Rabs x) / 2) ltac:(assert (Rabs x < 1) by (apply Rabs_def1; lra); lra)). intros y Hy.
      assert (-1 < y < 1). { unfold ball in Hy. cbn in Hy. unfold AbsRing_ball, abs, minus, plus, opp in Hy. cbn in Hy. apply Rabs_def2 in Hy. assert (Rabs x < 1) by (apply Rabs_def1; lra). pose proof (Rle_abs x). pose proof (Rle_abs (- x)). rewrite Rabs_Ropp in *. lra. }
      assert (0 < sqrt (1 - y ^ 2)) by (apply sqrt_lt_R0; nra). pose proof (one_minus (am (om y))). unfold N, stgp. req. field. repeat split; lra.
    - apply (continuous_mult (fun y => N (am (om y))) (fun y => / (PI * sqrt (1 - y ^ 2) * artanh (sqrt (sqrt m))))).
      + apply (continuous_comp (fun y => am (om y)) N x CA). apply (@ex_derive_continuous _ R_NormedModule). unfold N. pose proof (rad_pos m Hm' (am (om x))) as RP.
        auto_derive. cbn [pow] in *. rewrite ?Rmult_1_r in *. split; [lra|]. split; [lra|easy].
      + apply (@ex_derive_continuous _ R_NormedModule). auto_derive. cbn [pow] in *. rewrite ?Rmult_1_r in *. split; [nra|]. split; [|easy]. replace (1 + - (x * x)) with (1 - x * x) by ring. apply Rgt_not_eq. do 2 (apply Rmult_lt_0_compat; [|assumption]). assumption.
  Qed.
End Strip.

(** [interior s]: every node is in the open interval. *)
Definition interior (s : list R) : Prop := forall x, In x s -> -1 < x < 1.
Section C59.
  Context (ellipk : R -> R) (ellipj : R -> R -> R * R * R) (strip_parameter : R -> res R).
  (** On interior nodes the strip map is odd, increasing, tends to +-1 at the ends, and its second output is the derivative. *)
  Theorem C59_strip rho m : 1 < rho -> strip_parameter rho = Ok m -> 0 < m < 1 -> elliptic_at ellipk ellipj m ->
    exists g gp, (forall s, interior s -> tm_fun (map_strip ellipk ellipj strip_parameter rho) s = Ok (map g s, map gp s))
      /\ (forall x, g (- x) = - g x) /\ (forall x y, -1 < x -> x < y -> y < 1 -> g x < g y)
      /\ (forall x, -1 < x < 1 -> -1 < g x < 1)
      /\ filterlim g (at_left 1) (locally 1) /\ filterlim g (at_right (-1)) (locally (-1))
      /\ (forall x, -1 < x < 1 -> is_derive g x (gp x) /\ continuous gp x /\ 0 < gp x).
  Proof.
    intros Hr E Hm (EK & am & A & EJ). exists (stg m am), (stgp m am).
    assert (L1 := stg_lim m Hm am A). assert (L2 := stg_lim' m Hm am A).
    assert (IN := stg_incr m Hm am A). assert (OD := stg_odd m Hm am A).
    split; [|split; [exact OD|split; [exact IN|split; [|split; [exact L1|split; [exact L2|]]]]]].
    - intros s Hs. unfold map_strip. cbn [tm_fun].
      assert (X : existsb (fun x => if Rle_dec 1 (Rabs x) then true else false) s = false).
      { apply not_true_iff_false. rewrite existsb_exists. intros (x & Hx & H). specialize (Hs x Hx). destruct (Rle_dec 1 (Rabs x)) as [L|]; [|discriminate]. assert (Rabs x < 1) by (apply Rabs_def1; lra). lra. }
      rewrite X. destruct (Rle_dec rho 1); [lra|]. rewrite E. cbn [bind]. cbv zeta. rewrite EK. f_equal. f_equal; apply map_ext; intros x; rewrite !EJ; cbn [fst snd]; reflexivity.
    - assert (U : forall x, -1 < x < 1 -> stg m am x < 1).
      { intros x Hx. set (y := (x + 1) / 2). apply (Rlt_le_trans _ (stg m am y)); [apply IN; unfold y; lra|].
        apply (@filterlim_le R (at_left 1) _ (fun _ => stg m am y) (stg m am) (stg m am y) 1); [|apply filterlim_const|exact L1].
        exists (mkposreal (1 - y) ltac:(unfold y; lra)). intros z Hz Lz. unfold ball in Hz. cbn in Hz. unfold AbsRing_ball, abs, minus, plus, opp in Hz. cbn in Hz. apply Rabs_def2 in Hz. left. apply IN; unfold y in *; lra. }
      intros x Hx. split; [|now apply U]. specialize (U (- x) ltac:(lra)). rewrite OD in U. lra.
    - intros x Hx. split; [now apply stg_derive|]. split; [now apply stgp_cont|now apply stgp_pos].
  Qed.
  Theorem C59_strip_refused rho s : (exists x, In x s /\ 1 <= Rabs x) \/ rho <= 1 ->
    tm_fun (map_strip ellipk ellipj strip_parameter rho) s = Err ValueError.
  Proof.
    intros H. unfold map_strip. cbn [tm_fun]. destruct (existsb (fun x => if Rle_dec 1 (Rabs x) then true else false) s) eqn:X; [reflexivity|].
    destruct H as [(x & Hx & H)|H].
    - exfalso. apply not_true_iff_false in X. apply X. apply existsb_exists. exists x. split; [easy|]. now destruct (Rle_dec 1 (Rabs x)).
    - now destruct (Rle_dec rho 1).
  Qed.
  (** The transplanted rule integrates f iff the base rule returns the (improper) integral of f(g(s)) g'(s). *)
  Theorem C59_change_of_variables q rho m f : 1 < rho -> strip_parameter rho = Ok m -> 0 < m < 1 -> elliptic_at ellipk ellipj m ->
    wf_quad q -> q_dim q = 1%nat -> interior (map (fun c => nth 0 c 0) (q_nodes q)) -> (forall x, continuous f x) ->
    exists q' g gp, transplanted_1d q (map_strip ellipk ellipj strip_parameter rho) = Ok q'
      /\ tm_fun (map_strip ellipk ellipj strip_parameter rho) (map (fun c => nth 0 c 0) (q_nodes q)) = Ok (map g (map (fun c => nth 0 c 0) (q_nodes q)), map gp (map (fun c => nth 0 c 0) (q_nodes q)))
      /\ is_RInt_gen (fun s => f (g s) * gp s) (at_right (-1)) (at_left 1) (RInt f (-1) 1)
      /\ q_call q' (fun c => Ok (f (nth 0 c 0))) = q_call q (fun c => Ok (f (g (nth 0 c 0)) * gp (nth 0 c 0))).
  Proof.
    intros Hr E Hm EL W D HI Hf. destruct (C59_strip rho m Hr E Hm EL) as (g & gp & HR & OD & IN & BD & L1 & L2 & HD).
    destruct (transplanted_run q (map_strip ellipk ellipj strip_parameter rho) g gp W D (HR _ HI)) as (q' & E' & _ & _ & W' & _ & _ & _ & RU).
    exists q', g, gp. split; [exact E'|]. split; [now apply HR|]. split.
    - set (P := fun x => RInt f 0 x).
      assert (DP : forall x, is_derive P x (f x)).
      { intros x. apply (@is_derive_RInt R_NormedModule f P 0 x); [|apply Hf]. exists (mkposreal 1 Rlt_0_1). intros y _. apply (@RInt_correct R_CompleteNormedModule). apply (@ex_RInt_continuous R_CompleteNormedModule). intros; apply Hf. }
      assert (CP : forall x, continuous P x) by (intros x; apply (@ex_derive_continuous _ R_NormedModule); exists (f x); apply DP).
      apply (isG_eq (fun s => f (g s) * gp s) (P 1 - P (-1))).
      + apply (isG_FTC (fun s => P (g s)) (fun s => f (g s) * gp s) (P (-1)) (P 1)).
        * intros x Hx. destruct (HD x Hx) as (H1 & _ & _). rewrite Rmult_comm. apply (is_derive_comp P g x (f (g x)) (gp x) (DP _) H1).
        * intros x Hx. destruct (HD x Hx) as (H1 & H2 & _). apply (continuous_mult (fun s => f (g s)) gp); [|exact H2].
          apply (continuous_comp g f); [|apply Hf]. apply (@ex_derive_continuous _ R_NormedModule). eexists. exact H1.
        * exact (filterlim_comp _ _ _ g P _ _ _ L2 (CP (-1))).
        * exact (filterlim_comp _ _ _ g P _ _ _ L1 (CP 1)).
      + assert (EX : forall a b, ex_RInt f a b) by (intros; apply (@ex_RInt_continuous R_CompleteNormedModule); intros; apply Hf).
        pose proof (@RInt_Chasles R_CompleteNormedModule f 0 (-1) 1 (EX _ _) (EX _ _)) as CH. change (RInt f 0 (-1) + RInt f (-1) 1 = RInt f 0 1) in CH. unfold P. lra.
    - rewrite (q_call_rule q' _ (fun c => f (nth 0 c 0)) W') by easy. rewrite RU. symmetry. now apply q_call_rule.
  Qed.
End C59.

(** ** Concrete cases *)
(** The elliptic functions exist for every parameter, so the hypotheses can be met. *)
Example C59_elliptic_ex m : 0 < m < 1 -> exists ellipk ellipj, elliptic_at ellipk ellipj m.
Proof.
  intros H. destruct (amplitude_exists m ltac:(lra)) as [am A]. exists Kell, (fun u _ => (sin (am u), cos (am u), sqrt (1 - m * sin (am u) ^ 2))).
  split; [reflexivity|]. exists am. split; [exact A|reflexivity].
Qed.
Example C59_interior_ex : interior [- / 2; 0; / 2] /\ 0 < / 2 < 1 /\ 1 < 1.4.
Proof. split; [intros x [<-|[<-|[<-|[]]]]; lra|lra]. Qed.

Print Assumptions C59_strip.
Print Assumptions C59_strip_refused.
Print Assumptions C59_change_of_variables.
