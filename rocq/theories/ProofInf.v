(** * Infinite intervals in quadgk *)
From Coquelicot Require Import Coquelicot.
From Coq Require Import List Arith Bool ZArith QArith Reals Lra Lia Permutation Sorted.
From Verif Require Import Py RSum EnumFacts ModelNd ModelShapes ModelNodes ModelModes ModelQuad ModelGauss ModelKronrod.
From Verif Require Import ProofMonomial ProofQuad PropsTools ProofGauss2 ProofKronrod ProofQuadgk PropsKronrod PropsQuadgk.
Import ListNotations.
Local Open Scope R_scope.

(** ** The three changes of variables, as mathematical functions *)
Definition Xb (t : R) : R := t / (1 - t ^ 2).
Definition Xp (a t : R) : R := a + t / (1 - t).
Definition Xn (a t : R) : R := a - t / (1 - t).
Definition dXb (t : R) : R := (1 + t ^ 2) / (1 - t ^ 2) ^ 2.
Definition dXp (t : R) : R := / (1 - t) ^ 2.

Lemma Xb_incr s t : -1 < s -> s < t -> t < 1 -> Xb s < Xb t.
Proof.
  intros. unfold Xb. assert (0 < 1 - s ^ 2) by nra. assert (0 < 1 - t ^ 2) by nra.
  apply Rminus_gt_0_lt. replace (t / (1 - t ^ 2) - s / (1 - s ^ 2)) with ((t - s) * (1 + s * t) / ((1 - t ^ 2) * (1 - s ^ 2))) by (field; lra).
  apply Rdiv_lt_0_compat; [|nra]. apply Rmult_lt_0_compat; [lra|]. assert (-1 < s * t); [|lra].
  destruct (Rle_lt_dec 0 s), (Rle_lt_dec 0 t); nra.
Qed.
Lemma Xp_incr a s t : s < t -> t < 1 -> Xp a s < Xp a t.
Proof.
  intros. unfold Xp. apply Rplus_lt_compat_l. apply Rminus_gt_0_lt. replace (t / (1 - t) - s / (1 - s)) with ((t - s) / ((1 - t) * (1 - s))) by (field; lra).
  apply Rdiv_lt_0_compat; nra.
Qed.
Lemma Xn_decr a s t : s < t -> t < 1 -> Xn a t < Xn a s.
Proof. intros. pose proof (Xp_incr a s t H H0). unfold Xp, Xn in *. lra. Qed.

Definition Tb (x : R) : R := 2 * x / (1 + sqrt (1 ^ 2 + (2 * x) ^ 2)).
Lemma Tb_range x : -1 < Tb x < 1.
Proof.
  unfold Tb. set (r := sqrt (1 ^ 2 + (2 * x) ^ 2)). assert (R0 : 0 <= r) by apply sqrt_pos.
  assert (R2 : r * r = 1 + 4 * x ^ 2). { unfold r. rewrite sqrt_sqrt; [ring|]. pose proof (pow2_ge_0 (2 * x)). lra. }
  assert (R1 : Rabs (2 * x) < 1 + r).
  { apply Rle_lt_trans with r; [|lra]. apply Rsqr_incr_0; [|apply Rabs_pos|easy]. rewrite <- Rsqr_abs. unfold Rsqr. lra. }
  apply Rabs_def2 in R1. split.
  - apply Rmult_lt_reg_r with (1 + r); [lra|]. field_simplify; lra.
  - apply Rmult_lt_reg_r with (1 + r); [lra|]. field_simplify; lra.
Qed.
Lemma Xb_Tb x : Xb (Tb x) = x.
Proof.
  pose proof (Tb_range x) as TR. unfold Xb, Tb in *. set (r := sqrt (1 ^ 2 + (2 * x) ^ 2)) in *. assert (R0 : 0 <= r) by apply sqrt_pos.
  assert (R2 : r * r = 1 + 4 * x ^ 2). { unfold r. rewrite sqrt_sqrt; [ring|]. pose proof (pow2_ge_0 (2 * x)). lra. }
  replace (1 - (2 * x / (1 + r)) ^ 2) with (2 / (1 + r)); [field; lra|].
  apply Rmult_eq_reg_r with ((1 + r) ^ 2); [|apply pow_nonzero; lra]. field_simplify; [nra|lra|lra].
Qed.
Lemma Tb_Xb t : -1 < t < 1 -> Tb (Xb t) = t.
Proof.
  intros H. pose proof (Tb_range (Xb t)) as R1. pose proof (Xb_Tb (Xb t)) as E.
  destruct (Rtotal_order (Tb (Xb t)) t) as [L|[L|L]]; [|easy|].
  - pose proof (Xb_incr _ _ (proj1 R1) L (proj2 H)). lra.
  - pose proof (Xb_incr _ _ (proj1 H) L (proj2 R1)). lra.
Qed.
Definition Ts (d : R) : R := d / (1 + d).
Lemma Ts_range d : 0 <= d -> 0 <= Ts d < 1.
Proof.
  intros H. unfold Ts. split; [apply Rmult_le_pos; [easy|apply Rlt_le, Rinv_0_lt_compat; lra]|].
  apply Rmult_lt_reg_r with (1 + d); [lra|]. field_simplify; lra.
Qed.
Lemma Xp_Ts a d : 0 <= d -> Xp a (Ts d) = a + d.
Proof. intros H. unfold Xp, Ts. field. split; [lra|]. replace (1 + d - d) with 1 by ring. lra. Qed.
Lemma Xn_Ts a d : 0 <= d -> Xn a (Ts d) = a - d.
Proof. intros H. unfold Xn, Ts. field. split; [lra|]. replace (1 + d - d) with 1 by ring. lra. Qed.
Lemma Ts_Xp a t : 0 <= t < 1 -> Ts (Xp a t - a) = t /\ 0 <= Xp a t - a.
Proof.
  intros H. unfold Xp, Ts. split; [field; split; [lra|replace (1 - t + t) with 1 by ring; lra]|].
  replace (a + t / (1 - t) - a) with (t / (1 - t)) by ring. apply Rmult_le_pos; [lra|]. apply Rlt_le, Rinv_0_lt_compat. lra.
Qed.
Lemma semi_map_spec d : 0 <= d -> semi_map d = Ok (Ts d).
Proof.
  intros H. unfold semi_map, Req_bool. destruct (Req_EM_T d 0) as [->|NE]; [unfold Ts; f_equal; field|].
  assert (0 < d) by lra. assert (0 < 1 / d) by (apply Rdiv_lt_0_compat; lra).
  destruct (Req_EM_T (1 + 1 / d) 0); [lra|]. f_equal. unfold Ts. field. lra.
Qed.

(** ** Derivatives *)
Lemma Xb_deriv t : -1 < t < 1 -> is_derive Xb t (dXb t).
Proof. intros H. unfold Xb, dXb. auto_derive; [nra|]. field. nra. Qed.
Lemma Xp_deriv a t : t < 1 -> is_derive (Xp a) t (dXp t).
Proof. intros H. unfold Xp, dXp. auto_derive; [lra|]. field. lra. Qed.
Lemma Xn_deriv a t : t < 1 -> is_derive (Xn a) t (- dXp t).
Proof. intros H. unfold Xn, dXp. auto_derive; [lra|]. field. lra. Qed.
Lemma dXb_cont t : -1 < t < 1 -> continuous dXb t.
Proof. intros H. apply (ex_derive_continuous (K := R_AbsRing) (V := R_NormedModule)). unfold dXb. auto_derive. apply Rgt_not_eq. assert (0 < 1 - t ^ 2) by nra. nra. Qed.
Lemma dXp_cont t : t < 1 -> continuous dXp t.
Proof. intros H. apply (ex_derive_continuous (K := R_AbsRing) (V := R_NormedModule)). unfold dXp. auto_derive. apply Rgt_not_eq. nra. Qed.

(** ** The transformed integrands *)
Definition Gb (phi : R -> R) (t : R) : R := phi (Xb t) * dXb t.
Definition Gp (phi : R -> R) (a t : R) : R := phi (Xp a t) * dXp t.
Definition Gn (phi : R -> R) (a t : R) : R := phi (Xn a t) * dXp t.
Lemma both_inf_g_spec phi t : -1 < t < 1 -> both_inf_g (feval (fun y => Ok (phi y))) t = ([Xb t], Ok (Gb phi t)).
Proof.
  intros H. unfold both_inf_g, Req_bool. destruct (Req_EM_T (1 - t * t) 0) as [E|E]; [exfalso; nra|].
  assert (EX : t * (1 / (1 - t * t)) = Xb t) by (unfold Xb; field; nra).
  unfold feval, tbind. cbv zeta. rewrite EX. cbn [tret app]. apply (f_equal2 pair); [reflexivity|]. apply f_equal. unfold Gb, dXb.
  field. nra.
Qed.
Lemma semi_pos_g_spec phi a t : t <> 1 -> semi_pos_g (feval (fun y => Ok (phi y))) a t = ([Xp a t], Ok (Gp phi a t)).
Proof.
  intros H. unfold semi_pos_g, Req_bool. destruct (Req_EM_T (1 - t) 0) as [E|E]; [exfalso; lra|].
  assert (EX : a + t * (1 / (1 - t)) = Xp a t) by (unfold Xp; field; easy).
  unfold feval, tbind. cbv zeta. rewrite EX. cbn [tret app]. apply (f_equal2 pair); [reflexivity|]. apply f_equal. unfold Gp, dXp. field. easy.
Qed.
Lemma semi_neg_g_spec phi a t : t <> 1 -> semi_neg_g (feval (fun y => Ok (phi y))) a t = ([Xn a t], Ok (Gn phi a t)).
Proof.
  intros H. unfold semi_neg_g, Req_bool. destruct (Req_EM_T (1 - t) 0) as [E|E]; [exfalso; lra|].
  assert (EX : a - t * (1 / (1 - t)) = Xn a t) by (unfold Xn; field; easy).
  unfold feval, tbind. cbv zeta. rewrite EX. cbn [tret app]. apply (f_equal2 pair); [reflexivity|]. apply f_equal. unfold Gn, dXp. field. easy.
Qed.
Lemma both_inf_one_eval f : one_eval f -> one_eval (both_inf_g f).
Proof.
  intros H t l v E. unfold both_inf_g in E. destruct (Req_bool (1 - t * t) 0); [discriminate|]. cbv zeta in E. tinv E. unfold tret in T0. injection T0 as <- _.
  rewrite app_nil_r. eapply H, T.
Qed.
Lemma semi_pos_one_eval f a : one_eval f -> one_eval (semi_pos_g f a).
Proof.
  intros H t l v E. unfold semi_pos_g in E. destruct (Req_bool (1 - t) 0); [discriminate|]. cbv zeta in E. tinv E. unfold tret in T0. injection T0 as <- _.
  rewrite app_nil_r. eapply H, T.
Qed.
Lemma semi_neg_one_eval f a : one_eval f -> one_eval (semi_neg_g f a).
Proof.
  intros H t l v E. unfold semi_neg_g in E. destruct (Req_bool (1 - t) 0); [discriminate|]. cbv zeta in E. tinv E. unfold tret in T0. injection T0 as <- _.
  rewrite app_nil_r. eapply H, T.
Qed.

(** ** Change of variables on a panel *)
Lemma comp_panel phi X dX t1 t2 : t1 <= t2 ->
  (forall t, t1 <= t <= t2 -> is_derive X t (dX t)) -> (forall t, t1 <= t <= t2 -> continuous dX t) ->
  (forall t, t1 <= t <= t2 -> continuous phi (X t)) ->
  is_RInt (fun t => phi (X t) * dX t) t1 t2 (RInt phi (X t1) (X t2)).
Proof.
  intros L D C F. eapply is_RInt_ext; [|apply (is_RInt_comp (V := R_CompleteNormedModule) phi X dX t1 t2)].
  - intros t _. cbv beta. apply Rmult_comm.
  - rewrite Rmin_left, Rmax_right by easy. exact F.
  - rewrite Rmin_left, Rmax_right by easy. intros t Ht. split; [now apply D|now apply C].
Qed.
Lemma panel_both phi t1 t2 : -1 < t1 -> t1 <= t2 -> t2 < 1 -> (forall t, t1 <= t <= t2 -> continuous phi (Xb t)) ->
  is_RInt (Gb phi) t1 t2 (RInt phi (Xb t1) (Xb t2)).
Proof. intros. apply comp_panel; try easy; intros; [apply Xb_deriv|apply dXb_cont]; lra. Qed.
Lemma panel_pos phi a t1 t2 : t1 <= t2 -> t2 < 1 -> (forall t, t1 <= t <= t2 -> continuous phi (Xp a t)) ->
  is_RInt (Gp phi a) t1 t2 (RInt phi (Xp a t1) (Xp a t2)).
Proof. intros. apply comp_panel; try easy; intros; [apply Xp_deriv|apply dXp_cont]; lra. Qed.
Lemma panel_neg phi a t1 t2 : t1 <= t2 -> t2 < 1 -> (forall t, t1 <= t <= t2 -> continuous phi (Xn a t)) ->
  is_RInt (Gn phi a) t1 t2 (RInt phi (Xn a t2) (Xn a t1)).
Proof.
  intros H1 H2 H3. assert (Q := comp_panel phi (Xn a) (fun t => - dXp t) t1 t2 H1).
  rewrite <- (opp_RInt_swap phi).
  - eapply is_RInt_ext; [|apply (is_RInt_opp (V := R_NormedModule)), Q].
    + intros t _. cbv beta. unfold Gn. change (- (phi (Xn a t) * - dXp t) = phi (Xn a t) * dXp t). ring.
    + intros. apply Xn_deriv. lra.
    + intros. apply (continuous_opp (V := R_NormedModule)). apply dXp_cont. lra.
    + easy.
  - apply (ex_RInt_continuous (V := R_CompleteNormedModule)). intros z Hz.
    assert (LE : Xn a t2 <= Xn a t1) by (destruct H1 as [H1| ->]; [apply Rlt_le, Xn_decr; lra|lra]).
    rewrite Rmin_right, Rmax_left in Hz by lra. assert (EZ : exists t, t1 <= t <= t2 /\ Xn a t = z).
    { set (d := a - z). assert (D0 : 0 < 1 + d).
      { unfold d. assert (Xn a t1 < a + 1); [|lra]. unfold Xn. assert (-1 < t1 / (1 - t1)); [|lra]. apply Rmult_lt_reg_r with (1 - t1); [lra|]. field_simplify; lra. }
      assert (EX : Xn a (d / (1 + d)) = z). { unfold Xn, d in *. field. split; [lra|]. replace (1 + (a - z) - (a - z)) with 1 by ring. lra. }
      assert (D1 : d / (1 + d) < 1) by (apply Rmult_lt_reg_r with (1 + d); [lra|field_simplify; lra]).
      exists (d / (1 + d)). split; [|easy]. rewrite <- EX in Hz. split.
      - destruct (Rle_lt_dec t1 (d / (1 + d))) as [G|G]; [easy|]. pose proof (Xn_decr a _ _ G ltac:(lra)). lra.
      - destruct (Rle_lt_dec (d / (1 + d)) t2) as [G|G]; [easy|]. pose proof (Xn_decr a _ _ G ltac:(lra)). lra. }
    destruct EZ as (t & Ht & <-). now apply H3.
Qed.

(** ** Improper integrals *)
Lemma gen_comp phi G X (Fa Fb FA FB : (R -> Prop) -> Prop) (l : R) :
  Filter Fa -> Filter Fb -> Filter FA -> Filter FB -> filterlim X Fa FA -> filterlim X Fb FB ->
  filter_prod Fa Fb (fun ab => is_RInt G (fst ab) (snd ab) (RInt phi (X (fst ab)) (X (snd ab)))) ->
  is_RInt_gen phi FA FB l -> is_RInt_gen G Fa Fb l.
Proof.
  intros F1 F2 F3 F4 La Lb HP H P HPl. specialize (H P HPl). unfold filtermapi in *.
  assert (H' : filter_prod Fa Fb (fun ab => exists y : R, is_RInt phi (X (fst ab)) (X (snd ab)) y /\ P y)).
  { destruct H as [Q1 Q2 H1 H2 HQ]. exists (fun t => Q1 (X t)) (fun t => Q2 (X t)); [now apply La|now apply Lb|]. intros u v Hu Hv. cbn [fst snd] in *. exact (HQ _ _ Hu Hv). }
  eapply filter_imp; [|exact (filter_and _ _ HP H')]. intros [u v] [K1 (y & K2 & K3)]. cbn [fst snd] in *.
  exists y. split; [|easy]. rewrite <- (is_RInt_unique _ _ _ _ K2). exact K1.
Qed.
Lemma Xb_lim_right : filterlim Xb (at_left 1) (Rbar_locally p_infty).
Proof.
  intros P [M HM]. unfold filtermap, at_left, within. pose proof (Tb_range M) as TR.
  exists (mkposreal (1 - Tb M) ltac:(lra)). intros t Ht L. apply HM. rewrite <- (Xb_Tb M). apply Xb_incr; try lra.
  apply ball_Rabs in Ht || idtac. change (Rabs (t - 1) < 1 - Tb M) in Ht. apply Rabs_def2 in Ht. lra.
Qed.
Lemma Xb_lim_left : filterlim Xb (at_right (-1)) (Rbar_locally m_infty).
Proof.
  intros P [M HM]. unfold filtermap, at_right, within. pose proof (Tb_range M) as TR.
  exists (mkposreal (Tb M + 1) ltac:(lra)). intros t Ht L. apply HM. rewrite <- (Xb_Tb M). apply Xb_incr; try lra.
  change (Rabs (t - -1) < Tb M + 1) in Ht. apply Rabs_def2 in Ht. lra.
Qed.
Lemma Xp_lim a : filterlim (Xp a) (at_left 1) (Rbar_locally p_infty).
Proof.
  intros P [M HM]. unfold filtermap, at_left, within. set (d := Rmax 0 (M - a)). assert (D : 0 <= d) by apply Rmax_l.
  pose proof (Ts_range d D) as TR. exists (mkposreal (1 - Ts d) ltac:(lra)). intros t Ht L. apply HM.
  apply Rle_lt_trans with (Xp a (Ts d)); [rewrite Xp_Ts by easy; unfold d; pose proof (Rmax_r 0 (M - a)); lra|]. apply Xp_incr; [|easy].
  change (Rabs (t - 1) < 1 - Ts d) in Ht. apply Rabs_def2 in Ht. lra.
Qed.
Lemma Xn_lim a : filterlim (Xn a) (at_left 1) (Rbar_locally m_infty).
Proof.
  intros P [M HM]. unfold filtermap. assert (Q : Rbar_locally p_infty (fun y => P (2 * a - y))).
  { exists (2 * a - M). intros y Hy. apply HM. lra. }
  apply (Xp_lim a) in Q. unfold filtermap in Q. eapply filter_imp; [|exact Q]. intros t Ht. cbv beta in Ht.
  replace (Xn a t) with (2 * a - Xp a t) by (unfold Xn, Xp; ring). exact Ht.
Qed.
Lemma at_point_lim (X : R -> R) t : filterlim X (at_point t) (at_point (X t)).
Proof. intros P HP. exact HP. Qed.

Lemma gen_both phi l : (forall y, continuous phi y) -> is_RInt_gen phi (Rbar_locally m_infty) (Rbar_locally p_infty) l ->
  is_RInt_gen (Gb phi) (at_right (-1)) (at_left 1) l.
Proof.
  intros C. apply (gen_comp phi (Gb phi) Xb); try exact _; [exact Xb_lim_left|exact Xb_lim_right|].
  exists (fun t => -1 < t < 0) (fun t => 0 < t < 1).
  - exists (mkposreal 1 Rlt_0_1). intros t Ht L. change (Rabs (t - -1) < 1) in Ht. apply Rabs_def2 in Ht. lra.
  - exists (mkposreal 1 Rlt_0_1). intros t Ht L. change (Rabs (t - 1) < 1) in Ht. apply Rabs_def2 in Ht. lra.
  - intros u v Hu Hv. cbn [fst snd]. apply panel_both; try lra. intros. apply C.
Qed.
Lemma gen_pos phi a l : (forall y, a <= y -> continuous phi y) -> is_RInt_gen phi (at_point a) (Rbar_locally p_infty) l ->
  is_RInt_gen (Gp phi a) (at_point 0) (at_left 1) l.
Proof.
  intros C. replace a with (Xp a 0) at 1 by (unfold Xp; field).
  apply (gen_comp phi (Gp phi a) (Xp a)); try exact _; [apply at_point_lim|exact (Xp_lim a)|].
  exists (fun t => t = 0) (fun t => 0 < t < 1).
  - reflexivity.
  - exists (mkposreal 1 Rlt_0_1). intros t Ht L. change (Rabs (t - 1) < 1) in Ht. apply Rabs_def2 in Ht. lra.
  - intros u v -> Hv. cbn [fst snd]. apply panel_pos; try lra. intros t Ht. apply C. destruct (Ts_Xp a t); lra.
Qed.
Lemma gen_neg phi a l : (forall y, y <= a -> continuous phi y) -> is_RInt_gen phi (Rbar_locally m_infty) (at_point a) l ->
  is_RInt_gen (Gn phi a) (at_point 0) (at_left 1) l.
Proof.
  intros C H. apply (is_RInt_gen_swap (V := R_NormedModule)) in H.
  replace l with (- - l) by ring. apply (is_RInt_gen_ext (fun t => - (- Gn phi a t))).
  { exists (fun _ => True) (fun _ => True); [easy|exists (mkposreal 1 Rlt_0_1); easy|]. intros. req. ring. }
  apply (is_RInt_gen_opp (V := R_NormedModule)). revert H. replace a with (Xn a 0) at 1 by (unfold Xn; field).
  apply (gen_comp phi (fun t => - Gn phi a t) (Xn a)); try exact _; [apply at_point_lim|exact (Xn_lim a)|].
  exists (fun t => t = 0) (fun t => 0 < t < 1).
  - reflexivity.
  - exists (mkposreal 1 Rlt_0_1). intros t Ht L. change (Rabs (t - 1) < 1) in Ht. apply Rabs_def2 in Ht. lra.
  - intros u v -> Hv. cbn [fst snd].
    assert (CC : forall t, 0 <= t <= v -> continuous phi (Xn a t)).
    { intros t Ht. apply C. destruct (Ts_Xp a t) as [_ Q]; [lra|]. unfold Xp, Xn in *. lra. }
    eapply is_RInt_ext; [|apply (comp_panel phi (Xn a) (fun t => - dXp t) 0 v)]; try lra; try easy.
    + intros t _. cbv beta. unfold Gn. req. ring.
    + intros. apply Xn_deriv. lra.
    + intros. apply (continuous_opp (V := R_NormedModule)). apply dXp_cont. lra.
Qed.
