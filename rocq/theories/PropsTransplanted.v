(** * C40: transplanted rules are the change of variables they claim to be *)
From Coquelicot Require Import Coquelicot.
From Coq Require Import List Arith Bool ZArith QArith Reals Lra Lia.
From Verif Require Import Py RSum ModelNd ModelShapes ModelNodes ModelModes ModelQuad ModelGauss ModelClenshaw ModelTransplanted.
From Verif Require Import ProofMonomial SpecPoly ProofPoly1 ProofQuad ProofGauss2 ProofGauss3 ProofTransplanted PropsGauss PropsClenshaw.
Import ListNotations.
Local Open Scope R_scope.

(** [g] maps [-1, 1] onto itself, is odd and increasing, and [gp] is its derivative. *)
Definition transplant_map (g gp : R -> R) : Prop :=
  g (-1) = -1 /\ g 1 = 1 /\ (forall x, g (- x) = - g x)
  /\ (forall x y, -1 <= x -> x < y -> y <= 1 -> g x < g y)
  /\ (forall x, -1 <= x <= 1 -> is_derive g x (gp x) /\ continuous gp x).
(** The rule [q] integrates [h] over [-1, 1]. *)
Definition integrates (q : quad) (h : R -> R) : Prop :=
  exists v : R, is_RInt h (-1) 1 v /\ q_call q (fun c => Ok (h (nth 0 c 0))) = Ok v.

(** ** The maps *)
Theorem C40_identity : tm_identity map_identity = true
  /\ exists g gp, transplant_map g gp /\ (forall x, g x = x) /\ forall s, tm_fun map_identity s = Ok (map g s, map gp s).
Proof.
  split; [reflexivity|]. exists (fun x => x), (fun _ => 1). split; [|split; [reflexivity|]].
  - split; [reflexivity|]. split; [reflexivity|]. split; [intros; ring|]. split; [intros; lra|]. intros x _. split; [apply @is_derive_id|apply continuous_const].
  - intros s. unfold map_identity. cbn [tm_fun]. now rewrite map_id.
Qed.
(** The sausage map of degree d = 2 M + 1 is the truncated Taylor series of arcsin,
    normalised; it is a polynomial of degree d. *)
Theorem C40_sausage (M : nat) : tm_identity (map_sausage (2 * Z.of_nat M + 1)) = false
  /\ exists g gp, transplant_map g gp /\ (forall s, tm_fun (map_sausage (2 * Z.of_nat M + 1)) s = Ok (map g s, map gp s))
    /\ poly1 (2 * M + 1) g /\ poly1 (2 * M) gp
    /\ (forall x, let a k := INR (fact (2 * k)) / (4 ^ k * INR (fact k) ^ 2 * INR (2 * k + 1)) in
         g x = rsum (fun k => a k * x ^ (2 * k + 1)) (S M) / rsum a (S M)).
Proof.
  split; [reflexivity|]. exists (sg M), (sgp M). split; [|split; [apply sausage_run|split; [apply sg_poly|split; [apply sgp_poly|reflexivity]]]].
  split; [|split; [apply sg_1|split; [apply sg_odd|split]]].
  - change (-1) with (- (1)). rewrite sg_odd, sg_1. reflexivity.
  - apply (incr_of_derive (sg M) (sgp M)); intros; [apply sg_derive|apply sgp_pos].
  - intros x _. split; [apply sg_derive|]. apply (poly1_cont (2 * M)). apply sgp_poly.
Qed.
Theorem C40_sausage_refused (d : Z) s : (d < 1)%Z \/ Z.Even d -> tm_fun (map_sausage d) s = Err ValueError.
Proof.
  intros H. unfold map_sausage, arcsin_taylor_coefficients. cbn [tm_fun]. assert (E : ((d <? 1) || (d mod 2 =? 0))%Z = true); [|now rewrite E].
  apply orb_true_iff. destruct H as [H|[k ->]]; [left; now apply Z.ltb_lt|right]. rewrite Z.mul_comm, Z.mod_mul by lia. reflexivity.
Qed.
(** The Kosloff-Tal-Ezer map. *)
Theorem C40_kosloff_tal_ezer (rho alpha : R) (a : option R) :
  (a = Some alpha \/ (a = None /\ 1 < rho /\ alpha = 2 / (rho + / rho))) -> (a <> None -> 0 < alpha < 1) ->
  0 < alpha < 1 /\ tm_identity (map_kosloff_tal_ezer rho a) = false
  /\ exists g gp, transplant_map g gp /\ (forall s, tm_fun (map_kosloff_tal_ezer rho a) s = Ok (map g s, map gp s))
    /\ forall x, g x = asin (alpha * x) / asin alpha.
Proof.
  intros Ha Hr.
  assert (R : 0 < alpha < 1).
  { destruct Ha as [->|(-> & H1 & ->)]; [now apply Hr|]. assert (0 < / rho) by (apply Rinv_0_lt_compat; lra). assert (rho * / rho = 1) by (apply Rinv_r; lra).
    assert (2 < rho + / rho) by nra. split; [apply Rdiv_lt_0_compat; lra|]. apply (Rmult_lt_reg_r (rho + / rho)); [lra|]. unfold Rdiv. rewrite Rmult_assoc, Rinv_l by lra. lra. }
  split; [exact R|]. split; [reflexivity|].
  assert (EA : kte_alpha rho a = Ok alpha).
  { unfold kte_alpha. destruct Ha as [->|(-> & H1 & ->)]; cbn [bind].
    - destruct (Rlt_dec 0 alpha); [|lra]. destruct (Rlt_dec alpha 1); [reflexivity|lra].
    - destruct (Rle_dec rho 1); [lra|]. cbn [bind]. replace (1 / rho) with (/ rho) by (unfold Rdiv; ring). destruct (Rlt_dec 0 _); [|lra]. destruct (Rlt_dec _ 1); [reflexivity|lra]. }
  pose proof (asin_pos alpha ltac:(lra)) as P.
  exists (fun x => asin (alpha * x) / asin alpha), (fun x => alpha / (asin alpha * sqrt (1 - alpha ^ 2 * x ^ 2))). split; [|split; [|reflexivity]].
  2:{ intros s. unfold map_kosloff_tal_ezer. cbn [tm_fun]. rewrite EA. reflexivity. }
  assert (PS : forall x, -1 <= x <= 1 -> 0 < sqrt (1 - alpha ^ 2 * x ^ 2)). { intros x Hx. apply sqrt_lt_R0. pose proof (kte_range alpha x R Hx). nra. }
  assert (O : forall x, asin (alpha * - x) / asin alpha = - (asin (alpha * x) / asin alpha)).
  { intros x. rewrite <- Ropp_mult_distr_r, asin_opp. unfold Rdiv. ring. }
  split; [|split; [|split; [exact O|split]]].
  - change (-1) with (- (1)). rewrite O, Rmult_1_r. unfold Rdiv. rewrite Rinv_r by lra. reflexivity.
  - rewrite Rmult_1_r. unfold Rdiv. now rewrite Rinv_r by lra.
  - apply (incr_of_derive (fun x => asin (alpha * x) / asin alpha) (fun x => alpha / (asin alpha * sqrt (1 - alpha ^ 2 * x ^ 2)))).
    + intros x Hx. apply kte_derive; [easy|]. now apply kte_range.
    + intros x Hx. apply Rdiv_lt_0_compat; [lra|]. apply Rmult_lt_0_compat; [easy|now apply PS].
  - intros x Hx. split; [apply kte_derive; [easy|now apply kte_range]|].
    apply (@ex_derive_continuous _ R_NormedModule). pose proof (PS x Hx) as Q. pose proof (kte_range alpha x R Hx). assert (0 < 1 - alpha ^ 2 * x ^ 2) by nra.
    auto_derive. split; [|split; [|easy]]; cbn [pow] in *; rewrite ?Rmult_1_r in *; [lra|]. apply Rgt_not_eq. apply Rmult_lt_0_compat; easy.
Qed.
Theorem C40_kosloff_tal_ezer_refused (rho : R) (a : option R) s :
  (a = None /\ rho <= 1) \/ (exists v, a = Some v /\ (v <= 0 \/ 1 <= v)) -> tm_fun (map_kosloff_tal_ezer rho a) s = Err ValueError.
Proof.
  intros H. unfold map_kosloff_tal_ezer. cbn [tm_fun]. assert (E : kte_alpha rho a = Err ValueError); [|now rewrite E]. unfold kte_alpha. destruct H as [[-> H]|(v & -> & H)]; cbn [bind].
  - now destruct (Rle_dec rho 1).
  - destruct (Rlt_dec 0 v); [|reflexivity]. destruct (Rlt_dec v 1); [lra|reflexivity].
Qed.

(** ** The transplanted rule *)
Theorem C40_rule q m g gp : wf_quad q -> q_dim q = 1%nat -> (forall s, tm_fun m s = Ok (map g s, map gp s)) ->
  exists q', transplanted_1d q m = Ok q' /\ wf_quad q' /\ q_dim q' = 1%nat /\ q_flat q' = q_flat q
    /\ q_nodes q' = map (fun c => [g (nth 0 c 0)]) (q_nodes q)
    /\ (forall i, (i < length (q_nodes q))%nat -> nth i (q_weights q') 0 = nth i (q_weights q) 0 * gp (nth 0 (nth i (q_nodes q) []) 0))
    /\ exact_to q' = (if tm_identity m then exact_to q else Err AttributeError)
    /\ forall h, q_call q' (fun c => Ok (h (nth 0 c 0))) = q_call q (fun c => Ok (h (g (nth 0 c 0)) * gp (nth 0 c 0))).
Proof.
  intros W D Hm. destruct (transplanted_run q m g gp W D (Hm _)) as (q' & E & F & D' & W' & N & Wt & X & R). exists q'.
  split; [easy|]. split; [easy|]. split; [easy|]. split; [easy|]. split; [|split; [|split]].
  - now rewrite N, map_map.
  - intros i Hi. rewrite Wt. destruct W as [_ LW]. set (xs := map (fun c => nth 0 c 0) (q_nodes q)) in *. assert (LX : length xs = length (q_nodes q)) by (unfold xs; apply map_length).
    rewrite (nth_indep _ 0 ((fun p => fst p * snd p) (0, gp 0))) by (rewrite map_length, combine_length, map_length; lia).
    rewrite (map_nth (fun p => fst p * snd p) (combine (q_weights q) (map gp xs)) (0, gp 0) i).
    rewrite combine_nth by (rewrite map_length; lia). cbn [fst snd]. f_equal. rewrite map_nth. f_equal. unfold xs. apply (map_nth (fun c => nth 0 c 0) (q_nodes q) [] i).
  - unfold exact_to. rewrite X. destruct (tm_identity m); reflexivity.
  - intros h. rewrite (q_call_rule q' _ (fun c => h (nth 0 c 0)) W') by easy. rewrite R. symmetry. now apply q_call_rule.
Qed.
(** The transplanted rule integrates f iff the base rule integrates f(g(s)) g'(s). *)
Theorem C40_change_of_variables q m g gp f q' : wf_quad q -> q_dim q = 1%nat -> transplant_map g gp ->
  (forall s, tm_fun m s = Ok (map g s, map gp s)) -> (forall x, -1 <= x <= 1 -> continuous f x) -> transplanted_1d q m = Ok q' ->
  (integrates q' f <-> integrates q (fun s => f (g s) * gp s)).
Proof.
  intros W D (G1 & G2 & _ & GI & GD) Hm Hf E. destruct (C40_rule q m g gp W D Hm) as (q'' & E' & _ & _ & _ & _ & _ & _ & R).
  assert (q'' = q') as -> by congruence. clear E'.
  assert (IF : is_RInt f (-1) 1 (RInt f (-1) 1)).
  { apply (@RInt_correct R_CompleteNormedModule). apply (@ex_RInt_continuous R_CompleteNormedModule). intros z Hz. rewrite Rmin_left, Rmax_right in Hz by lra. now apply Hf. }
  assert (IC : is_RInt (fun s => f (g s) * gp s) (-1) 1 (RInt f (-1) 1)).
  { replace (RInt f (-1) 1) with (RInt f (g (-1)) (g 1)) by (now rewrite G1, G2). eapply is_RInt_ext; [|apply (@is_RInt_comp R_CompleteNormedModule f g gp (-1) 1)].
    - intros x _. cbv beta. unfold Hierarchy.scal. cbn. unfold mult. cbn. req. ring.
    - intros x Hx. rewrite Rmin_left, Rmax_right in Hx by lra. apply Hf. split.
      + destruct (Req_dec x (-1)) as [->|]; [lra|]. rewrite <- G1. left. apply GI; lra.
      + destruct (Req_dec x 1) as [->|]; [lra|]. rewrite <- G2. left. apply GI; lra.
    - intros x Hx. rewrite Rmin_left, Rmax_right in Hx by lra. now apply GD. }
  unfold integrates. rewrite R. split; intros (v & I & C).
  - exists v. split; [|exact C]. assert (v = RInt f (-1) 1) as -> by (symmetry; exact (is_RInt_unique _ _ _ _ I)). exact IC.
  - exists v. split; [|exact C]. assert (v = RInt f (-1) 1) as ->; [|exact IF]. rewrite <- (is_RInt_unique _ _ _ _ I). exact (is_RInt_unique _ _ _ _ IC).
Qed.
(** Polynomials: a base rule of degree D and the sausage map of degree d give a rule
    of degree p whenever p d + (d - 1) <= D. *)
Theorem C40_sausage_exact q (M D p : nat) f : wf_quad q -> q_dim q = 1%nat ->
  (forall h, poly1 D h -> integrates q h) -> (p * (2 * M + 1) + 2 * M <= D)%nat -> poly1 p f ->
  exists q', transplanted_1d q (map_sausage (2 * Z.of_nat M + 1)) = Ok q' /\ integrates q' f.
Proof.
  intros W Dm HB Hd Hf. destruct (C40_sausage M) as (_ & g & gp & T & Hm & Pg & Pgp & _).
  destruct (C40_rule q _ g gp W Dm Hm) as (q' & E & _). exists q'. split; [exact E|].
  apply (C40_change_of_variables q _ g gp f q' W Dm T Hm); [intros; apply (poly1_cont p _ _ Hf)|exact E|].
  apply HB. apply (poly1_weaken (p * (2 * M + 1) + 2 * M)); [easy|]. apply poly1_mult; [|easy]. now apply poly1_comp.
Qed.
(** The transplanted Legendre-Gauss rule with n + 1 nodes. *)
Theorem C40_legendre_gauss (n M p : nat) eigh rj be force f : eigh_at eigh 0 0 n -> builtin be ->
  ((p + 1) * (2 * M + 1) <= 2 * n + 2)%nat -> poly1 p f ->
  exists q', transplanted_legendre_gauss eigh rj n (map_sausage (2 * Z.of_nat M + 1)) be force = Ok q'
    /\ length (q_nodes q') = (n + 1)%nat /\ integrates q' f.
Proof.
  intros HE HB Hd Hf. destruct (C37_special_cases eigh rj n be force) as (EL & _ & _ & _ & G0 & _).
  destruct (C37_rule 0 0 n eigh rj be force G0 (fun _ => HE) HB) as (q & E & LN & _ & HX & LW & _ & _ & D & _).
  assert (W : wf_quad q).
  { split; [|lia]. rewrite D. apply Forall_forall. intros c Hc. destruct (HX c Hc) as (x & -> & _). reflexivity. }
  destruct (C40_sausage_exact q M (2 * n + 1) p f W D) as (q' & E' & I); [|nia|exact Hf|].
  - intros h Hh. destruct (C37_exact 0 0 n eigh rj be force q (fun c => h (nth 0 c 0))) as (v & Iv & Ev); [exact HE|exact HB|exact E|now apply poly1_is_poly|].
    exists v. split; [|exact Ev]. eapply is_RInt_ext; [|exact Iv]. intros x _. cbv beta. cbn [nth pow]. req. ring.
  - exists q'. split; [unfold transplanted_legendre_gauss; rewrite EL, E; exact E'|]. split; [|exact I].
    destruct (C40_sausage M) as (_ & g & gp & _ & Hm & _). destruct (C40_rule q _ g gp W D Hm) as (q'' & E'' & _ & _ & _ & N & _). assert (q'' = q') as -> by congruence. rewrite N, map_length. exact LN.
Qed.
(** Base rules of other dimensions are refused. *)
Theorem C40_not_1d q m : q_flat q = false -> q_dim q <> 1%nat -> transplanted_1d q m = Err ValueError.
Proof. intros F D. unfold transplanted_1d. rewrite F. destruct (Nat.eqb_spec (q_dim q) 1); [easy|reflexivity]. Qed.

(** ** Concrete cases *)
(** The cubic sausage map: g(x) = (6 x + x^3) / 7. *)
Example C40_cubic_ex x : tm_fun (map_sausage 3) [x] = Ok ([(6 * x + x ^ 3) / 7], [(6 + 3 * x ^ 2) / 7]).
Proof.
  change 3%Z with (2 * Z.of_nat 1 + 1)%Z. rewrite sausage_run. cbn [map]. do 2 f_equal.
  - unfold sg, asin_coef. cbn. f_equal. field.
  - unfold sgp, asin_coef. cbn. f_equal. field.
Qed.
(** Clenshaw-Curtis rules meet the hypotheses on the base rule: with N = 8 and the cubic map, quadratics are integrated. *)
Example C40_base_ex : exists q, clenshaw_curtis 8 true = Ok q /\ wf_quad q /\ q_dim q = 1%nat /\ (forall h, poly1 8 h -> integrates q h).
Proof.
  destruct (C39_clenshaw_curtis 8 true ltac:(lia)) as (q & E & LN & LW & D & _ & _ & X). exists q. split; [exact E|]. split; [|split; [exact D|]].
  - split; [|lia]. rewrite D. change (Z.of_nat 8) with 8%Z in E. unfold clenshaw_curtis, cc_nodes_weights in E. cbn [Z.ltb Z.eqb Z.compare Pos.compare Pos.compare_cont Pos.eqb] in E. cbv zeta in E.
    destruct (checked_real _) as [wr|e] in E; [|discriminate]. cbn [bind fst snd] in E. match goal with H : Ok ?x = Ok q |- _ => assert (q = x) as -> by congruence end. cbn [q_nodes]. apply Forall_map, Forall_forall. reflexivity.
  - intros h Hh. destruct (X (fun c => h (nth 0 c 0)) (poly1_is_poly 8 h Hh)) as (v & I & C). exists v. split; [exact I|exact C].
Qed.
Example C40_square_ex : (2 * (2 * 1 + 1) + 2 * 1 <= 8)%nat /\ poly1 2 (fun x => x ^ 2) /\ Z.Even 4 /\ 0 < 2 / (1.4 + / 1.4) < 1.
Proof.
  split; [lia|]. split; [apply poly1_pow|]. split; [now exists 2%Z|]. split; [apply Rdiv_lt_0_compat; lra|]. apply (Rmult_lt_reg_r (1.4 + / 1.4)); [lra|]. unfold Rdiv. rewrite Rmult_assoc, Rinv_l by lra. lra.
Qed.

Print Assumptions C40_identity.
Print Assumptions C40_sausage.
Print Assumptions C40_sausage_refused.
Print Assumptions C40_kosloff_tal_ezer.
Print Assumptions C40_kosloff_tal_ezer_refused.
Print Assumptions C40_rule.
Print Assumptions C40_change_of_variables.
Print Assumptions C40_sausage_exact.
Print Assumptions C40_legendre_gauss.
Print Assumptions C40_not_1d.
