(** * Jacobi orthonormality for real parameters a, b > -1 (improper integrals) *)
From Coq Require Import List Arith Bool ZArith Reals Lia Lra.
From Coquelicot Require Import Coquelicot.
From Verif Require Import Py ModelModes RSum IntFacts ProofGamma ProofJacobi ProofJacobi2 ProofJacobiOrtho.
Import ListNotations.
Local Open Scope R_scope.

(** Improper integral over (-1, 1) *)
Definition isG (f : R -> R) (l : R) : Prop := is_RInt_gen f (at_right (-1)) (at_left 1) l.

Lemma prod_in (P : R * R -> Prop) :
  (forall u v, -1 < u < 0 -> 0 < v < 1 -> P (u, v)) ->
  filter_prod (at_right (-1)) (at_left 1) P.
Proof.
  intros H. apply Filter_prod with (fun u => -1 < u < 0) (fun v => 0 < v < 1).
  - exists (mkposreal 1 Rlt_0_1). intros y Hy Hy1. unfold ball in Hy. simpl in Hy.
    unfold AbsRing_ball, abs, minus, plus, opp in Hy. simpl in Hy.
    apply Rabs_def2 in Hy. lra.
  - exists (mkposreal 1 Rlt_0_1). intros y Hy Hy1. unfold ball in Hy. simpl in Hy.
    unfold AbsRing_ball, abs, minus, plus, opp in Hy. simpl in Hy.
    apply Rabs_def2 in Hy. lra.
  - intros u v Hu Hv. now apply H.
Qed.

Lemma isG_ext f g l : (forall x, -1 < x < 1 -> f x = g x) -> isG f l -> isG g l.
Proof.
  intros E H. unfold isG. eapply is_RInt_gen_ext; [|exact H].
  apply prod_in. intros u v Hu Hv x. cbn [fst snd].
  rewrite Rmin_left, Rmax_right by lra. intros Hx. apply E. lra.
Qed.

Lemma isG_plus f g l m : isG f l -> isG g m -> isG (fun x => f x + g x) (l + m).
Proof. intros H1 H2. exact (is_RInt_gen_plus f g l m H1 H2). Qed.

Lemma isG_scal c f l : isG f l -> isG (fun x => c * f x) (c * l).
Proof. intros H. exact (is_RInt_gen_scal f c l H). Qed.

Lemma isG_eq f l m : isG f l -> l = m -> isG f m.
Proof. now intros H <-. Qed.

Lemma isG_unique f l m : isG f l -> isG f m -> l = m.
Proof.
  intros H1 H2.
  pose proof (is_RInt_gen_unique (V := R_CompleteNormedModule) f l H1) as E1.
  pose proof (is_RInt_gen_unique (V := R_CompleteNormedModule) f m H2) as E2. congruence.
Qed.

Lemma isG_le f g l m : (forall x, -1 < x < 1 -> 0 <= f x <= g x) -> isG f l -> isG g m -> l <= m.
Proof.
  intros H H1 H2. eapply Rle_trans; [apply (Rle_abs l)|].
  eapply (RInt_gen_norm (V := R_CompleteNormedModule) (Fa := at_right (-1)) (Fb := at_left 1) f g l m); [| |exact H1|exact H2].
  - apply prod_in. intros u v Hu Hv. cbn [fst snd]. lra.
  - apply prod_in. intros u v Hu Hv x. cbn [fst snd]. intros Hx.
    change (norm (f x)) with (Rabs (f x)). rewrite Rabs_right; [|apply Rle_ge]; apply H; lra.
Qed.

Lemma isG_FTC (g dg : R -> R) (la lb : R) :
  (forall x, -1 < x < 1 -> is_derive g x (dg x)) ->
  (forall x, -1 < x < 1 -> continuous dg x) ->
  filterlim g (at_right (-1)) (locally la) ->
  filterlim g (at_left 1) (locally lb) ->
  isG dg (lb - la).
Proof.
  intros Hd Hc Hla Hlb.
  apply isG_ext with (Derive g).
  { intros x Hx. apply is_derive_unique. now apply Hd. }
  apply (is_RInt_gen_Derive g la lb).
  - apply prod_in. intros u v Hu Hv x. cbn [fst snd]. rewrite Rmin_left, Rmax_right by lra.
    intros Hx. exists (dg x). apply Hd. lra.
  - apply prod_in. intros u v Hu Hv x. cbn [fst snd]. rewrite Rmin_left, Rmax_right by lra.
    intros Hx. apply continuous_ext_loc with dg; [|apply Hc; lra].
    assert (Hx1 : -1 < x < 1) by lra.
    assert (Hp : 0 < Rmin (x + 1) (1 - x)) by (apply Rmin_pos; lra).
    exists (mkposreal _ Hp). intros y Hy.
    unfold ball in Hy. simpl in Hy. unfold AbsRing_ball, abs, minus, plus, opp in Hy. simpl in Hy.
    apply Rabs_def2 in Hy.
    pose proof (Rmin_l (x + 1) (1 - x)). pose proof (Rmin_r (x + 1) (1 - x)).
    symmetry. apply is_derive_unique. apply Hd. lra.
  - exact Hla.
  - exact Hlb.
Qed.

Definition wr (a b x : R) : R := Rpower (1 - x) a * Rpower (1 + x) b.

(** ** Limits at the end points *)
Lemma Rpower_small c eps : 0 < c -> 0 < eps -> forall t, 0 < t < Rpower eps (/ c) -> Rpower t c < eps.
Proof.
  intros Hc He t Ht.
  replace eps with (Rpower (Rpower eps (/ c)) c).
  - unfold Rpower at 1. unfold Rpower at 1. apply exp_increasing.
    apply Rmult_lt_compat_l; [easy|]. apply ln_increasing; easy.
  - rewrite Rpower_mult, Rinv_l by lra. now apply Rpower_1.
Qed.

Lemma lim_right_pow c : 0 < c -> filterlim (fun x => Rpower (1 + x) c) (at_right (-1)) (locally 0).
Proof.
  intros Hc P [eps HP].
  exists (mkposreal (Rpower eps (/ c)) (Rpower_pos _ _)). intros y Hy Hy1.
  unfold ball in Hy. simpl in Hy. unfold AbsRing_ball, abs, minus, plus, opp in Hy. simpl in Hy.
  apply Rabs_def2 in Hy. apply HP.
  unfold ball. simpl. unfold AbsRing_ball, abs, minus, plus, opp. simpl.
  rewrite Ropp_0, Rplus_0_r, Rabs_right by (left; apply Rpower_pos).
  apply Rpower_small; [easy|apply cond_pos|]. lra.
Qed.

Lemma lim_left_pow c : 0 < c -> filterlim (fun x => Rpower (1 - x) c) (at_left 1) (locally 0).
Proof.
  intros Hc P [eps HP].
  exists (mkposreal (Rpower eps (/ c)) (Rpower_pos _ _)). intros y Hy Hy1.
  unfold ball in Hy. simpl in Hy. unfold AbsRing_ball, abs, minus, plus, opp in Hy. simpl in Hy.
  apply Rabs_def2 in Hy. apply HP.
  unfold ball. simpl. unfold AbsRing_ball, abs, minus, plus, opp. simpl.
  rewrite Ropp_0, Rplus_0_r, Rabs_right by (left; apply Rpower_pos).
  apply Rpower_small; [easy|apply cond_pos|]. lra.
Qed.

Lemma fl_mult (Fl : (R -> Prop) -> Prop) (FF : Filter Fl) (f g : R -> R) (l m : R) :
  filterlim f Fl (locally l) -> filterlim g Fl (locally m) ->
  filterlim (fun x => f x * g x) Fl (locally (l * m)).
Proof.
  intros H1 H2. eapply filterlim_comp_2; [exact H1|exact H2|].
  apply (filterlim_mult (K := R_AbsRing)).
Qed.

Lemma fl_cont_right (f : R -> R) (x : R) : continuous f x -> filterlim f (at_right x) (locally (f x)).
Proof.
  intros H. eapply filterlim_filter_le_1; [|exact H]. apply filter_le_within.
Qed.
Lemma fl_cont_left (f : R -> R) (x : R) : continuous f x -> filterlim f (at_left x) (locally (f x)).
Proof.
  intros H. eapply filterlim_filter_le_1; [|exact H]. apply filter_le_within.
Qed.

Lemma Rpower_derive1 c x : x < 1 -> is_derive (fun y => Rpower (1 - y) c) x (- c * Rpower (1 - x) (c - 1)).
Proof.
  intros Hx. unfold Rpower. auto_derive; [lra|].
  replace ((c - 1) * ln (1 - x)) with (c * ln (1 - x) + - ln (1 - x)) by ring.
  rewrite exp_plus, exp_Ropp, exp_ln by lra. unfold Rminus. field. lra.
Qed.
Lemma Rpower_derive2 c x : -1 < x -> is_derive (fun y => Rpower (1 + y) c) x (c * Rpower (1 + x) (c - 1)).
Proof.
  intros Hx. unfold Rpower. auto_derive; [lra|].
  replace ((c - 1) * ln (1 + x)) with (c * ln (1 + x) + - ln (1 + x)) by ring.
  rewrite exp_plus, exp_Ropp, exp_ln by lra. field. lra.
Qed.

Lemma Rpower_up1 c x : x < 1 -> Rpower (1 - x) (c + 1) = Rpower (1 - x) c * (1 - x).
Proof. intros Hx. rewrite Rpower_plus, Rpower_1 by lra. easy. Qed.
Lemma Rpower_up2 c x : -1 < x -> Rpower (1 + x) (c + 1) = Rpower (1 + x) c * (1 + x).
Proof. intros Hx. rewrite Rpower_plus, Rpower_1 by lra. easy. Qed.

Lemma wr_deriv a b x : -1 < x < 1 ->
  is_derive (wr (a + 1) (b + 1)) x (wr a b x * ((b + 1) * (1 - x) - (a + 1) * (1 + x))).
Proof.
  intros Hx. unfold wr.
  replace (Rpower (1 - x) a * Rpower (1 + x) b * ((b + 1) * (1 - x) - (a + 1) * (1 + x)))
    with (- (a + 1) * Rpower (1 - x) (a + 1 - 1) * Rpower (1 + x) (b + 1)
          + Rpower (1 - x) (a + 1) * ((b + 1) * Rpower (1 + x) (b + 1 - 1))).
  - apply (is_derive_mult (fun y => Rpower (1 - y) (a + 1)) (fun y => Rpower (1 + y) (b + 1))).
    + apply Rpower_derive1; lra.
    + apply Rpower_derive2; lra.
    + intros n m. apply Rmult_comm.
  - replace (a + 1 - 1) with a by ring. replace (b + 1 - 1) with b by ring.
    rewrite Rpower_up1, Rpower_up2 by lra. ring.
Qed.

Lemma wr_cont a b x : -1 < x < 1 -> continuous (wr a b) x.
Proof.
  intros Hx. apply ex_derive_cont. unfold wr, Rpower. auto_derive. lra.
Qed.

Lemma wr_lims a b (f : R -> R) : 0 < a -> 0 < b -> (forall x, continuous f x) ->
  filterlim (fun x => wr a b x * f x) (at_right (-1)) (locally 0) /\
  filterlim (fun x => wr a b x * f x) (at_left 1) (locally 0).
Proof.
  intros Ha Hb Hf. unfold wr. split.
  - replace 0 with (Rpower (1 - -1) a * 0 * f (-1)) by ring.
    apply fl_mult; [typeclasses eauto| |now apply fl_cont_right].
    apply fl_mult; [typeclasses eauto| |now apply lim_right_pow].
    apply (fl_cont_right (fun x => Rpower (1 - x) a)). apply ex_derive_cont. unfold Rpower. auto_derive. lra.
  - replace 0 with (0 * Rpower (1 + 1) b * f 1) by ring.
    apply fl_mult; [typeclasses eauto| |now apply fl_cont_left].
    apply fl_mult; [typeclasses eauto|now apply lim_left_pow|].
    apply (fl_cont_left (fun x => Rpower (1 + x) b)). apply ex_derive_cont. unfold Rpower. auto_derive. lra.
Qed.

(** ** Total mass of the weight *)
Lemma wr_dint a b : -1 < a -> -1 < b ->
  isG (fun x => wr a b x * ((b + 1) * (1 - x) - (a + 1) * (1 + x))) 0.
Proof.
  intros Ha Hb.
  destruct (wr_lims (a + 1) (b + 1) (fun _ => 1) ltac:(lra) ltac:(lra)) as [L1 L2].
  { intros x. apply continuous_const. }
  eapply isG_eq; [apply (isG_FTC (fun x => wr (a + 1) (b + 1) x * 1) _ 0 0)|ring].
  - intros x Hx. apply is_derive_ext with (wr (a + 1) (b + 1)); [intros t; req; ring|].
    now apply wr_deriv.
  - intros x Hx.
    apply (continuous_mult (wr a b) (fun x => (b + 1) * (1 - x) - (a + 1) * (1 + x))).
    + now apply wr_cont.
    + apply ex_derive_cont. auto_derive. easy.
  - exact L1.
  - exact L2.
Qed.

Lemma mass_up a b l : -1 < a -> -1 < b -> isG (wr (a + 1) b) l ->
  isG (wr a b) (l * (a + b + 2) / (2 * (a + 1))).
Proof.
  intros Ha Hb H.
  eapply isG_ext; [|eapply isG_eq; [apply isG_plus;
    [apply (isG_scal ((a + b + 2) / (2 * (a + 1))) _ _ H)
    |apply (isG_scal (- / (2 * (a + 1))) _ _ (wr_dint a b Ha Hb))]|]].
  - intros x Hx. cbv beta. unfold wr. rewrite Rpower_up1 by lra. field. lra.
  - field. lra.
Qed.

Lemma mass_up2 a b l : -1 < a -> -1 < b -> isG (wr a (b + 1)) l ->
  isG (wr a b) (l * (a + b + 2) / (2 * (b + 1))).
Proof.
  intros Ha Hb H.
  eapply isG_ext; [|eapply isG_eq; [apply isG_plus;
    [apply (isG_scal ((a + b + 2) / (2 * (b + 1))) _ _ H)
    |apply (isG_scal (/ (2 * (b + 1))) _ _ (wr_dint a b Ha Hb))]|]].
  - intros x Hx. cbv beta. unfold wr. rewrite Rpower_up2 by lra. field. lra.
  - field. lra.
Qed.

(** Existence for positive exponents: continuous extension. *)
Definition wext (a b x : R) : R :=
  if Rlt_dec (-1) x then if Rlt_dec x 1 then wr a b x else 0 else 0.

Lemma wext_in a b x : -1 < x < 1 -> wext a b x = wr a b x.
Proof. intros Hx. unfold wext. destruct (Rlt_dec (-1) x), (Rlt_dec x 1); try lra; easy. Qed.

Lemma wext_small a b eps : 0 < a -> 0 < b -> 0 < eps ->
  exists d, 0 < d /\ forall x, Rabs (x - 1) < d \/ Rabs (x + 1) < d -> Rabs (wext a b x) < eps.
Proof.
  intros Ha Hb He.
  set (M := Rmax (Rpower 2 a) (Rpower 2 b)).
  assert (HM : 0 < M) by (eapply Rlt_le_trans; [apply (Rpower_pos 2 a)|apply Rmax_l]).
  exists (Rmin (Rpower (eps / M) (/ a)) (Rpower (eps / M) (/ b))).
  split. { apply Rmin_pos; apply Rpower_pos. }
  intros x Hx. unfold wext.
  destruct (Rlt_dec (-1) x) as [H1|H1]; [|now rewrite Rabs_R0].
  destruct (Rlt_dec x 1) as [H2|H2]; [|now rewrite Rabs_R0].
  assert (HeM : 0 < eps / M) by now apply Rdiv_lt_0_compat.
  unfold wr. rewrite Rabs_right by (left; apply Rmult_lt_0_compat; apply Rpower_pos).
  assert (P1 : Rpower (1 - x) a <= Rpower 2 a) by (apply Rle_Rpower_l; lra).
  assert (P2 : Rpower (1 + x) b <= Rpower 2 b) by (apply Rle_Rpower_l; lra).
  pose proof (Rmax_l (Rpower 2 a) (Rpower 2 b)) as M1. fold M in M1.
  pose proof (Rmax_r (Rpower 2 a) (Rpower 2 b)) as M2. fold M in M2.
  pose proof (Rpower_pos (1 - x) a). pose proof (Rpower_pos (1 + x) b).
  replace eps with (eps / M * M) by (field; lra).
  destruct Hx as [Hx|Hx].
  - assert (Hs : Rpower (1 - x) a < eps / M).
    { apply Rpower_small; try easy. rewrite Rabs_left in Hx by lra.
      pose proof (Rmin_l (Rpower (eps / M) (/ a)) (Rpower (eps / M) (/ b))). lra. }
    apply Rle_lt_trans with (Rpower (1 - x) a * M).
    + apply Rmult_le_compat_l; lra.
    + apply Rmult_lt_compat_r; lra.
  - assert (Hs : Rpower (1 + x) b < eps / M).
    { apply Rpower_small; try easy. rewrite Rabs_right in Hx by lra.
      pose proof (Rmin_r (Rpower (eps / M) (/ a)) (Rpower (eps / M) (/ b))). lra. }
    apply Rle_lt_trans with (M * Rpower (1 + x) b).
    + apply Rmult_le_compat_r; lra.
    + rewrite Rmult_comm. apply Rmult_lt_compat_r; lra.
Qed.

Lemma Rball (x : R) (d : R) (y : R) (Hd : 0 < d) :
  ball x (mkposreal d Hd) y <-> Rabs (y - x) < d.
Proof. unfold ball. simpl. unfold AbsRing_ball, abs, minus, plus, opp. simpl. easy. Qed.

Lemma wext_cont a b x : 0 < a -> 0 < b -> continuous (wext a b) x.
Proof.
  intros Ha Hb.
  assert (Hz : wext a b x = 0 -> (forall e, 0 < e -> exists d, 0 < d /\
             forall y, Rabs (y - x) < d -> Rabs (wext a b y) < e) -> continuous (wext a b) x).
  { intros E H P [eps HP]. rewrite E in HP.
    destruct (H eps (cond_pos eps)) as (d & Hd & H').
    exists (mkposreal d Hd). intros y Hy. apply Rball in Hy. apply HP.
    unfold ball. simpl. unfold AbsRing_ball, abs, minus, plus, opp. simpl.
    rewrite Ropp_0, Rplus_0_r. now apply H'. }
  destruct (Rlt_dec (-1) x) as [H1|H1]; [destruct (Rlt_dec x 1) as [H2|H2]|].
  - assert (Hp : 0 < Rmin (x + 1) (1 - x)) by (apply Rmin_pos; lra).
    apply continuous_ext_loc with (wr a b); [|now apply wr_cont].
    exists (mkposreal _ Hp). intros y Hy. apply Rball in Hy. apply Rabs_def2 in Hy.
    pose proof (Rmin_l (x + 1) (1 - x)). pose proof (Rmin_r (x + 1) (1 - x)).
    symmetry. apply wext_in. lra.
  - apply Hz.
    + unfold wext. destruct (Rlt_dec (-1) x), (Rlt_dec x 1); lra.
    + intros e He. destruct (wext_small a b e Ha Hb He) as (d & Hd & H).
      destruct (Req_dec x 1) as [->|Hne].
      * exists d. split; [easy|]. intros y Hy. apply H. now left.
      * exists (x - 1). split; [lra|]. intros y Hy. apply Rabs_def2 in Hy.
        unfold wext. destruct (Rlt_dec (-1) y), (Rlt_dec y 1); try lra; now rewrite Rabs_R0.
  - apply Hz.
    + unfold wext. destruct (Rlt_dec (-1) x); lra.
    + intros e He. destruct (wext_small a b e Ha Hb He) as (d & Hd & H).
      destruct (Req_dec x (-1)) as [->|Hne].
      * exists d. split; [easy|]. intros y Hy. apply H. right.
        now replace (y + 1) with (y - -1) by ring.
      * exists (-1 - x). split; [lra|]. intros y Hy. apply Rabs_def2 in Hy.
        unfold wext. destruct (Rlt_dec (-1) y); try lra; now rewrite Rabs_R0.
Qed.

Lemma mass_ex_pos a b : 0 < a -> 0 < b -> exists l, isG (wr a b) l.
Proof.
  intros Ha Hb. set (g := fun x => RInt (wext a b) 0 x).
  assert (Hg : forall x, is_derive g x (wext a b x)).
  { intros x. apply (is_derive_RInt (wext a b) g 0 x).
    - exists (mkposreal 1 Rlt_0_1). intros y _. unfold g. apply isR_continuous.
      intros z. now apply wext_cont.
    - now apply wext_cont. }
  exists (g 1 - g (-1)).
  apply isG_ext with (wext a b); [intros x Hx; now apply wext_in|].
  apply (isG_FTC g (wext a b) (g (-1)) (g 1)).
  - intros x _. apply Hg.
  - intros x _. now apply wext_cont.
  - apply fl_cont_right. apply ex_derive_cont. eexists. apply Hg.
  - apply fl_cont_left. apply ex_derive_cont. eexists. apply Hg.
Qed.

Lemma mass_ex a b : -1 < a -> -1 < b -> exists l, isG (wr a b) l.
Proof.
  intros Ha Hb. destruct (mass_ex_pos (a + 1) (b + 1) ltac:(lra) ltac:(lra)) as [l Hl].
  apply mass_up in Hl; [|lra..]. eapply mass_up2 in Hl; [|lra..]. eexists. exact Hl.
Qed.

(** Normalised mass J(a,b) = 2^{-(a+b+1)} * mass. *)
Definition isJ (a b l : R) : Prop := isG (wr a b) (Rpower 2 (a + b + 1) * l).

Lemma isJ_unique a b l m : isJ a b l -> isJ a b m -> l = m.
Proof.
  intros H1 H2. pose proof (isG_unique _ _ _ H1 H2) as E.
  apply Rmult_eq_reg_l in E; [easy|]. apply Rgt_not_eq, Rpower_pos.
Qed.

Lemma isJ_ex a b : -1 < a -> -1 < b -> exists l, isJ a b l.
Proof.
  intros Ha Hb. destruct (mass_ex a b Ha Hb) as [l Hl].
  exists (l / Rpower 2 (a + b + 1)). unfold isJ. eapply isG_eq; [exact Hl|].
  pose proof (Rpower_pos 2 (a + b + 1)). field. lra.
Qed.

Lemma isJ_down a b l : -1 < a -> -1 < b -> isJ (a + 1) b l -> isJ a b (l * (a + b + 2) / (a + 1)).
Proof.
  intros Ha Hb H. apply mass_up in H; try easy. unfold isJ. eapply isG_eq; [exact H|].
  replace (a + 1 + b + 1) with (a + b + 1 + 1) by ring. rewrite Rpower_plus, Rpower_1 by lra.
  field. lra.
Qed.

Lemma isJ_up a b l : -1 < a -> -1 < b -> isJ a b l -> isJ (a + 1) b (l * (a + 1) / (a + b + 2)).
Proof.
  intros Ha Hb H. destruct (isJ_ex (a + 1) b ltac:(lra) Hb) as [m Hm].
  pose proof (isJ_down a b m Ha Hb Hm) as H'.
  rewrite (isJ_unique _ _ _ _ H H').
  replace (m * (a + b + 2) / (a + 1) * (a + 1) / (a + b + 2)) with m by (field; lra). easy.
Qed.

Lemma Rpower_decr t u v : 0 < t <= 1 -> u <= v -> Rpower t v <= Rpower t u.
Proof.
  intros Ht Huv. unfold Rpower.
  destruct (Req_dec t 1) as [->|Hne].
  - rewrite ln_1, !Rmult_0_r. lra.
  - assert (ln t < 0) by (rewrite <- ln_1; apply ln_increasing; lra).
    destruct (Req_dec u v) as [->|Hn]; [lra|]. left. apply exp_increasing. nra.
Qed.

Lemma isJ_mono a a' b l m : a <= a' -> isJ a b l -> isJ a' b m -> m <= l.
Proof.
  intros Haa H1 H2.
  pose proof (isG_scal (/ Rpower 2 (a + b + 1)) _ _ H1) as G1.
  pose proof (isG_scal (/ Rpower 2 (a' + b + 1)) _ _ H2) as G2.
  pose proof (Rpower_pos 2 (a + b + 1)). pose proof (Rpower_pos 2 (a' + b + 1)).
  replace (/ Rpower 2 (a + b + 1) * (Rpower 2 (a + b + 1) * l)) with l in G1 by (field; lra).
  replace (/ Rpower 2 (a' + b + 1) * (Rpower 2 (a' + b + 1) * m)) with m in G2 by (field; lra).
  eapply isG_le; [|exact G2|exact G1]. intros x Hx. cbv beta. split.
  - apply Rmult_le_pos; [left; now apply Rinv_0_lt_compat|].
    unfold wr. apply Rmult_le_pos; left; apply Rpower_pos.
  - assert (E : forall c, / Rpower 2 (c + b + 1) * wr c b x
                = / Rpower 2 (b + 1) * Rpower (1 + x) b * Rpower ((1 - x) * / 2) c).
    { intros c. unfold wr. rewrite <- (Rpower_mult_distr (1 - x) (/ 2)) by lra.
      replace (c + b + 1) with (c + (b + 1)) by ring. rewrite Rpower_plus.
      assert (Hi : Rpower (/ 2) c = / Rpower 2 c).
      { unfold Rpower. rewrite ln_Rinv by lra. rewrite <- exp_Ropp. f_equal. ring. }
      rewrite Hi. pose proof (Rpower_pos 2 c). pose proof (Rpower_pos 2 (b + 1)). field. split; lra. }
    rewrite !E. apply Rmult_le_compat_l.
    + apply Rmult_le_pos; left; [apply Rinv_0_lt_compat|]; apply Rpower_pos.
    + apply Rpower_decr; lra.
Qed.

Lemma isJ_0 b : -1 < b -> isJ 0 b (/ (b + 1)).
Proof.
  intros Hb. unfold isJ.
  eapply isG_ext; [|eapply isG_eq; [apply (isG_FTC (fun x => Rpower (1 + x) (b + 1) * / (b + 1))
     (fun x => Rpower (1 + x) b) (0 * / (b + 1)) (Rpower (1 + 1) (b + 1) * / (b + 1)))|]].
  - intros x Hx. cbv beta. unfold wr. rewrite Rpower_O by lra. ring.
  - intros x Hx.
    replace (Rpower (1 + x) b) with ((b + 1) * Rpower (1 + x) (b + 1 - 1) * / (b + 1)).
    + apply (is_derive_scal_l (V := R_NormedModule) (fun y => Rpower (1 + y) (b + 1))).
      apply Rpower_derive2; lra.
    + replace (b + 1 - 1) with b by ring. field. lra.
  - intros x Hx. apply ex_derive_cont. unfold Rpower. auto_derive. lra.
  - apply fl_mult; [typeclasses eauto|apply lim_right_pow; lra|apply filterlim_const].
  - apply (fl_cont_left (fun x => Rpower (1 + x) (b + 1) * / (b + 1))).
    apply ex_derive_cont. unfold Rpower. auto_derive. lra.
  - rewrite Rplus_0_l. replace (1 + 1) with 2 by ring. ring.
Qed.

Lemma isJ_nat b n : -1 < b -> isJ (INR n) b (INR (fact n) / rise (b + 1) n).
Proof.
  intros Hb. induction n as [|n IH].
  - simpl. replace (1 / (b + 1)) with (/ (b + 1)) by (field; lra). now apply isJ_0.
  - rewrite S_INR. pose proof (pos_INR n).
    apply isJ_up in IH; [|lra..].
    match type of IH with isJ _ _ ?v => replace (INR (fact (S n)) / rise (b + 1) (S n)) with v; [easy|] end.
    change (fact (S n)) with (S n * fact n)%nat. cbn [rise]. rewrite mult_INR, S_INR.
    pose proof (rise_pos (b + 1) n ltac:(lra)). field. repeat split; lra.
Qed.

Lemma isJ_shift a b n l m : -1 < a -> -1 < b -> isJ a b l -> isJ (a + INR n + 1) b m ->
  l = m * (rise (a + b + 2) n / rise (a + 1) n).
Proof.
  intros Ha Hb Hl. revert m. induction n as [|n IH]; intros m Hm.
  - simpl in Hm. replace (a + 0 + 1) with (a + 1) in Hm by ring.
    apply isJ_down in Hm; try easy. rewrite (isJ_unique _ _ _ _ Hl Hm). cbn [rise]. field. lra.
  - rewrite S_INR in Hm. pose proof (pos_INR n).
    replace (a + (INR n + 1) + 1) with (a + INR n + 1 + 1) in Hm by ring.
    apply isJ_down in Hm; [|lra..]. rewrite (IH _ Hm). cbn [rise]. rewrite S_INR.
    pose proof (rise_pos (a + 1) n ltac:(lra)). field. repeat split; lra.
Qed.

Lemma gauss_conv x : 0 < x -> is_lim_seq (gauss_gamma_seq x) (gamma x).
Proof. intros Hx. destruct (gauss_lim_pos x Hx) as (l & Hl & _). now rewrite (gamma_lim x l). Qed.

Lemma Rpower_cont_1 c : continuous (fun t => Rpower t c) 1.
Proof. apply ex_derive_cont. unfold Rpower. auto_derive. lra. Qed.

Theorem beta_J a b : -1 < a -> -1 < b ->
  isJ a b (gamma (a + 1) * gamma (b + 1) / gamma (a + b + 2)).
Proof.
  intros Ha Hb. destruct (isJ_ex a b Ha Hb) as [l Hl].
  replace (gamma (a + 1) * gamma (b + 1) / gamma (a + b + 2)) with l; [easy|].
  pose proof (gamma_pos (a + 1) ltac:(lra)) as Ga.
  pose proof (gamma_pos (b + 1) ltac:(lra)) as Gb.
  pose proof (gamma_pos (a + b + 2) ltac:(lra)) as Gs.
  destruct (INR_unbounded (a + 1)) as [M HM].
  (* v n = l * gauss(s+2) n / gauss (a+1) n is squeezed *)
  set (v := fun n => l * (gauss_gamma_seq (a + b + 2) n / gauss_gamma_seq (a + 1) n)).
  assert (Hv : is_lim_seq v (l * (gamma (a + b + 2) / gamma (a + 1)))).
  { apply is_lim_seq_mult'; [apply is_lim_seq_const|].
    apply is_lim_seq_div'; [apply gauss_conv; lra..|lra]. }
  assert (Hsq : is_lim_seq v (gamma (b + 1))).
  { apply is_lim_seq_le_le_loc with
      (u := fun n => gauss_gamma_seq (b + 1) (n + M) * Rpower (INR n / INR (n + M)) (b + 1))
      (w := gauss_gamma_seq (b + 1)).
    - exists 1%nat. intros n Hn.
      assert (Hn0 : 0 < INR n) by (apply lt_0_INR; lia).
      pose proof (pos_INR M) as HM0.
      destruct (isJ_ex (a + INR n + 1) b ltac:(lra) Hb) as [m Hm].
      assert (E : v n = m * Rpower (INR n) (b + 1)).
      { unfold v. rewrite (isJ_shift a b n l m Ha Hb Hl Hm). rewrite !gauss_eq.
        replace (a + b + 2) with ((a + 1) + (b + 1)) by ring. rewrite Rpower_plus.
        pose proof (rise_pos (a + 1) n ltac:(lra)).
        pose proof (rise_pos (a + 1 + (b + 1)) n ltac:(lra)).
        pose proof (INR_fact_lt_0 n). pose proof (Rpower_pos (INR n) (a + 1)).
        field. repeat split; lra. }
      rewrite E.
      pose proof (isJ_mono _ _ _ _ _ (ltac:(lra) : INR n <= a + INR n + 1) (isJ_nat b n Hb) Hm) as U.
      assert (HMn : a + INR n + 1 <= INR (n + M)) by (rewrite plus_INR; lra).
      pose proof (isJ_mono _ _ _ _ _ HMn Hm (isJ_nat b (n + M) Hb)) as L.
      pose proof (Rpower_pos (INR n) (b + 1)) as Hp.
      split.
      + rewrite gauss_eq.
        assert (HnM : 0 < INR (n + M)) by (rewrite plus_INR; lra).
        replace (INR (fact (n + M)) * Rpower (INR (n + M)) (b + 1) / rise (b + 1) (n + M)
                 * Rpower (INR n / INR (n + M)) (b + 1))
          with (INR (fact (n + M)) / rise (b + 1) (n + M)
                * (Rpower (INR (n + M)) (b + 1) * Rpower (INR n / INR (n + M)) (b + 1)))
          by (unfold Rdiv; ring).
        rewrite Rpower_mult_distr by (try apply Rdiv_lt_0_compat; easy).
        replace (INR (n + M) * (INR n / INR (n + M))) with (INR n) by (field; lra).
        apply Rmult_le_compat_r; lra.
      + rewrite gauss_eq.
        replace (INR (fact n) * Rpower (INR n) (b + 1) / rise (b + 1) n)
          with (INR (fact n) / rise (b + 1) n * Rpower (INR n) (b + 1)) by (unfold Rdiv; ring).
        apply Rmult_le_compat_r; lra.
    - replace (gamma (b + 1)) with (gamma (b + 1) * Rpower 1 (b + 1)).
      2:{ unfold Rpower. rewrite ln_1, Rmult_0_r, exp_0. ring. }
      apply is_lim_seq_mult'.
      + apply (is_lim_seq_incr_n (gauss_gamma_seq (b + 1)) M). apply gauss_conv. lra.
      + assert (L1 : is_lim_seq (fun n => INR n / INR (n + M)) 1).
        { eapply is_lim_seq_ext; [|apply (lim_frac (INR M - 1))].
          intros n. cbv beta. rewrite plus_INR. f_equal. ring. }
        apply (is_lim_seq_continuous (fun t => Rpower t (b + 1)) (fun n => INR n / INR (n + M)) 1).
        * apply continuity_pt_filterlim. apply Rpower_cont_1.
        * exact L1.
    - apply gauss_conv. lra. }
  pose proof (is_lim_seq_unique _ _ Hv) as U1. pose proof (is_lim_seq_unique _ _ Hsq) as U2.
  rewrite U1 in U2. injection U2 as E.
  rewrite <- E. field. split; lra.
Qed.

Lemma mass_G0 a b : -1 < a -> -1 < b -> isG (wr a b) (G0 a b).
Proof.
  intros Ha Hb. eapply isG_eq; [apply (beta_J a b Ha Hb)|]. unfold G0, Rdiv. ring.
Qed.

(** ** Orthonormality *)
Lemma F_intG a b n : -1 < a -> -1 < b -> isG (fun x => F a (a + b) (S n) x * wr a b x) 0.
Proof.
  intros Ha Hb. set (s := a + b).
  destruct (wr_lims (a + 1) (b + 1) (F (a + 1) (s + 2) n) ltac:(lra) ltac:(lra)) as [L1 L2].
  { intros x. apply F_cont. }
  assert (H : isG (fun x => - (2 * (a + 1)) * (F a s (S n) x * wr a b x)) (0 - 0)).
  { apply (isG_FTC (fun x => wr (a + 1) (b + 1) x * F (a + 1) (s + 2) n x)).
    - intros x Hx.
      replace (- (2 * (a + 1)) * (F a s (S n) x * wr a b x))
        with (wr a b x * ((b + 1) * (1 - x) - (a + 1) * (1 + x)) * F (a + 1) (s + 2) n x
              + wr (a + 1) (b + 1) x * dF (a + 1) (s + 2) n x).
      + apply (is_derive_mult (wr (a + 1) (b + 1)) (F (a + 1) (s + 2) n)).
        * now apply wr_deriv.
        * apply F_dF.
        * intros n0 m0. apply Rmult_comm.
      + transitivity (- (2 * (a + 1)) * F a s (S n) x * wr a b x); [|ring].
        rewrite <- (rodrigues a s n x Ha) by (unfold s; lra).
        replace (s - a + 1) with (b + 1) by (unfold s; ring).
        unfold wr. rewrite Rpower_up1, Rpower_up2 by lra. ring.
    - intros x Hx.
      apply (continuous_scal_r (- (2 * (a + 1))) (fun x => F a s (S n) x * wr a b x)).
      apply (continuous_mult (F a s (S n)) (wr a b)); [apply F_cont|now apply wr_cont].
    - exact L1.
    - exact L2. }
  apply (isG_scal (/ - (2 * (a + 1)))) in H.
  eapply isG_ext; [|eapply isG_eq; [exact H|ring]].
  intros x Hx. cbv beta. field. lra.
Qed.

Theorem jacobi_orthonormal_real a b m n : -1 < a -> -1 < b -> exact_params a b ->
  is_RInt_gen (fun x => jacobi Rops a b m x * jacobi Rops a b n x
                        * (Rpower (1 - x) a * Rpower (1 + x) b))
    (at_right (-1)) (at_left 1) (delta m n).
Proof.
  intros Ha Hb He.
  change (isG (fun x => jacobi Rops a b m x * jacobi Rops a b n x * wr a b x) (delta m n)).
  eapply isG_ext with (f := fun x => jp a b m x * jp a b n x * wr a b x).
  { intros x _. cbv beta. now rewrite !jacobi_jp by first [easy|now apply jac_gamma0_pos]. }
  apply (jp_orthonormal (fun f l => isG (fun x => f x * wr a b x) l) a b); try easy.
  - intros f g l E H. eapply isG_ext; [|exact H]. intros x _. cbv beta. now rewrite E.
  - intros f g l k H1 H2. eapply isG_ext; [|exact (isG_plus _ _ _ _ H1 H2)].
    intros x _. cbv beta. ring.
  - intros c f l H1. eapply isG_ext; [|exact (isG_scal c _ _ H1)]. intros x _. cbv beta. ring.
  - eapply isG_ext; [|now apply mass_G0]. intros x _. cbv beta. ring.
  - intros k. now apply F_intG.
Qed.
