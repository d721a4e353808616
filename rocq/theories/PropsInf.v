(** * C43: infinite intervals and reversed limits in quadgk *)
From Coquelicot Require Import Coquelicot.
From Coq Require Import List Arith Bool ZArith QArith Reals Lra Lia Permutation Sorted.
From Verif Require Import Py RSum EnumFacts ModelNd ModelShapes ModelNodes ModelModes ModelQuad ModelGauss ModelKronrod.
From Verif Require Import ProofMonomial ProofQuad PropsTools ProofGauss2 ProofKronrod ProofQuadgk PropsKronrod PropsQuadgk ProofInf ProofInf2.
Import ListNotations.
Local Open Scope R_scope.

(** ** Break points: inverse, increasing bijections *)
Theorem C43_both_map :
  both_inf_map PInf = Ok 1 /\ both_inf_map MInf = Ok (-1)
  /\ (forall x, exists t, both_inf_map (Fin x) = Ok t /\ -1 < t < 1 /\ t / (1 - t ^ 2) = x)
  /\ (forall t, -1 < t < 1 -> both_inf_map (Fin (t / (1 - t ^ 2))) = Ok t)
  /\ (forall s t, -1 < s -> s < t -> t < 1 -> s / (1 - s ^ 2) < t / (1 - t ^ 2)).
Proof.
  repeat split.
  - intros x. exists (Tb x). split; [reflexivity|]. split; [apply Tb_range|apply Xb_Tb].
  - intros t Ht. change (Ok (Tb (Xb t)) = Ok t). now rewrite Tb_Xb.
  - intros. now apply Xb_incr.
Qed.
Theorem C43_pos_map a :
  semi_pos_map a PInf = Ok 1
  /\ (forall x, a <= x -> exists t, semi_pos_map a (Fin x) = Ok t /\ 0 <= t < 1 /\ a + t / (1 - t) = x)
  /\ (forall t, 0 <= t < 1 -> a <= a + t / (1 - t) /\ semi_pos_map a (Fin (a + t / (1 - t))) = Ok t)
  /\ (forall s t, 0 <= s -> s < t -> t < 1 -> a + s / (1 - s) < a + t / (1 - t)).
Proof.
  split; [reflexivity|]. split; [|split].
  - intros x Hx. exists (Ts (x - a)). cbn [semi_pos_map]. rewrite semi_map_spec by lra. split; [easy|]. split; [apply Ts_range; lra|].
    change (Xp a (Ts (x - a)) = x). rewrite Xp_Ts; lra.
  - intros t Ht. destruct (Ts_Xp a t Ht) as [E L]. unfold Xp in *. split; [lra|]. cbn [semi_pos_map]. rewrite semi_map_spec by easy. now rewrite E.
  - intros. now apply Xp_incr.
Qed.
(** The third map is decreasing; the code reverses the list of the images. *)
Theorem C43_neg_map a :
  semi_neg_map a MInf = Ok 1
  /\ (forall x, x <= a -> exists t, semi_neg_map a (Fin x) = Ok t /\ 0 <= t < 1 /\ a - t / (1 - t) = x)
  /\ (forall t, 0 <= t < 1 -> a - t / (1 - t) <= a /\ semi_neg_map a (Fin (a - t / (1 - t))) = Ok t)
  /\ (forall s t, 0 <= s -> s < t -> t < 1 -> a - t / (1 - t) < a - s / (1 - s)).
Proof.
  split; [reflexivity|]. split; [|split].
  - intros x Hx. exists (Ts (a - x)). cbn [semi_neg_map]. rewrite semi_map_spec by lra. split; [easy|]. split; [apply Ts_range; lra|].
    change (Xn a (Ts (a - x)) = x). rewrite Xn_Ts; lra.
  - intros t Ht. destruct (Ts_Xp a t Ht) as [E L]. unfold Xp in *. split; [lra|]. cbn [semi_neg_map].
    replace (a - (a - t / (1 - t))) with (a + t / (1 - t) - a) by ring. rewrite semi_map_spec by easy. now rewrite E.
  - intros. now apply Xn_decr.
Qed.

(** ** Integrands: one call of the user's function, times the derivative *)
Theorem C43_both_integrand phi t : -1 < t < 1 ->
  both_inf_g (feval (fun y => Ok (phi y))) t
  = ([t / (1 - t ^ 2)], Ok (phi (t / (1 - t ^ 2)) * Derive (fun s => s / (1 - s ^ 2)) t)).
Proof.
  intros H. rewrite both_inf_g_spec by easy. unfold Gb. now rewrite (is_derive_unique _ _ _ (Xb_deriv t H) : Derive (fun s => s / (1 - s ^ 2)) t = _).
Qed.
Theorem C43_pos_integrand phi a t : t < 1 ->
  semi_pos_g (feval (fun y => Ok (phi y))) a t
  = ([a + t / (1 - t)], Ok (phi (a + t / (1 - t)) * Derive (fun s => a + s / (1 - s)) t)).
Proof.
  intros H. rewrite semi_pos_g_spec by lra. unfold Gp. now rewrite (is_derive_unique _ _ _ (Xp_deriv a t H) : Derive (fun s => a + s / (1 - s)) t = _).
Qed.
Theorem C43_neg_integrand phi a t : t < 1 ->
  semi_neg_g (feval (fun y => Ok (phi y))) a t
  = ([a - t / (1 - t)], Ok (phi (a - t / (1 - t)) * - Derive (fun s => a - s / (1 - s)) t)).
Proof.
  intros H. rewrite semi_neg_g_spec by lra. unfold Gn. rewrite (is_derive_unique _ _ _ (Xn_deriv a t H) : Derive (fun s => a - s / (1 - s)) t = _). now rewrite Ropp_involutive.
Qed.

(** ** Integrals over panels.  [g] stands for the values of the transformed integrand. *)
Definition values (h : R -> tr R) (g : R -> R) (t1 t2 : R) : Prop := forall t, t1 < t < t2 -> exists l, h t = (l, Ok (g t)).
Lemma values_eq h g g' l t1 t2 (v : R) : values h g t1 t2 -> (forall t, t1 < t < t2 -> h t = (l t, Ok (g' t))) -> t1 <= t2 -> is_RInt g' t1 t2 v -> is_RInt g t1 t2 v.
Proof.
  intros H H' L I. eapply is_RInt_ext; [|exact I]. rewrite Rmin_left, Rmax_right by easy. intros t Ht. destruct (H t Ht) as (l1 & E). rewrite H' in E by easy. injection E as _ ->. reflexivity.
Qed.
Theorem C43_both_panel phi g t1 t2 : -1 < t1 -> t1 <= t2 -> t2 < 1 ->
  (forall y, t1 / (1 - t1 ^ 2) <= y <= t2 / (1 - t2 ^ 2) -> continuous phi y) ->
  values (both_inf_g (feval (fun y => Ok (phi y)))) g t1 t2 ->
  is_RInt g t1 t2 (RInt phi (t1 / (1 - t1 ^ 2)) (t2 / (1 - t2 ^ 2))).
Proof.
  intros H1 H2 H3 C V. apply (values_eq _ _ (Gb phi) (fun t => [Xb t]) _ _ _ V); [|easy|].
  - intros t Ht. apply both_inf_g_spec. lra.
  - apply panel_both; try easy. intros t Ht. apply C. split.
    + destruct (Rle_lt_or_eq_dec _ _ (proj1 Ht)) as [G| ->]; [apply Rlt_le, Xb_incr; lra|apply Rle_refl].
    + destruct (Rle_lt_or_eq_dec _ _ (proj2 Ht)) as [G| ->]; [apply Rlt_le, Xb_incr; lra|apply Rle_refl].
Qed.
Theorem C43_pos_panel phi g a t1 t2 : 0 <= t1 -> t1 <= t2 -> t2 < 1 ->
  (forall y, a + t1 / (1 - t1) <= y <= a + t2 / (1 - t2) -> continuous phi y) ->
  values (semi_pos_g (feval (fun y => Ok (phi y))) a) g t1 t2 ->
  is_RInt g t1 t2 (RInt phi (a + t1 / (1 - t1)) (a + t2 / (1 - t2))).
Proof.
  intros H1 H2 H3 C V. apply (values_eq _ _ (Gp phi a) (fun t => [Xp a t]) _ _ _ V); [|easy|].
  - intros t Ht. apply semi_pos_g_spec. lra.
  - apply panel_pos; try easy. intros t Ht. apply C. split.
    + destruct (Rle_lt_or_eq_dec _ _ (proj1 Ht)) as [G| ->]; [apply Rlt_le, Xp_incr; lra|apply Rle_refl].
    + destruct (Rle_lt_or_eq_dec _ _ (proj2 Ht)) as [G| ->]; [apply Rlt_le, Xp_incr; lra|apply Rle_refl].
Qed.
Theorem C43_neg_panel phi g a t1 t2 : 0 <= t1 -> t1 <= t2 -> t2 < 1 ->
  (forall y, a - t2 / (1 - t2) <= y <= a - t1 / (1 - t1) -> continuous phi y) ->
  values (semi_neg_g (feval (fun y => Ok (phi y))) a) g t1 t2 ->
  is_RInt g t1 t2 (RInt phi (a - t2 / (1 - t2)) (a - t1 / (1 - t1))).
Proof.
  intros H1 H2 H3 C V. apply (values_eq _ _ (Gn phi a) (fun t => [Xn a t]) _ _ _ V); [|easy|].
  - intros t Ht. apply semi_neg_g_spec. lra.
  - apply panel_neg; try easy. intros t Ht. apply C. split.
    + destruct (Rle_lt_or_eq_dec _ _ (proj2 Ht)) as [G| ->]; [apply Rlt_le, Xn_decr; lra|apply Rle_refl].
    + destruct (Rle_lt_or_eq_dec _ _ (proj1 Ht)) as [G| ->]; [apply Rlt_le, Xn_decr; lra|apply Rle_refl].
Qed.

(** ** The whole interval *)
Theorem C43_both_improper phi g (l : R) : (forall y, continuous phi y) ->
  (forall t, -1 < t < 1 -> exists c, both_inf_g (feval (fun y => Ok (phi y))) t = (c, Ok (g t))) ->
  is_RInt_gen phi (Rbar_locally m_infty) (Rbar_locally p_infty) l -> is_RInt_gen g (at_right (-1)) (at_left 1) l.
Proof.
  intros C V H. apply (gen_both phi l C) in H. eapply is_RInt_gen_ext; [|exact H].
  exists (fun t => -1 < t < 0) (fun t => 0 < t < 1).
  - exists (mkposreal 1 Rlt_0_1). intros t Ht L. change (Rabs (t - -1) < 1) in Ht. apply Rabs_def2 in Ht. lra.
  - exists (mkposreal 1 Rlt_0_1). intros t Ht L. change (Rabs (t - 1) < 1) in Ht. apply Rabs_def2 in Ht. lra.
  - intros u v Hu Hv t Ht. cbn [fst snd] in Ht. rewrite Rmin_left, Rmax_right in Ht by lra. destruct (V t ltac:(lra)) as (c & E). rewrite both_inf_g_spec in E by lra. injection E as _ <-. reflexivity.
Qed.
Theorem C43_pos_improper phi g a (l : R) : (forall y, a <= y -> continuous phi y) ->
  (forall t, 0 <= t < 1 -> exists c, semi_pos_g (feval (fun y => Ok (phi y))) a t = (c, Ok (g t))) ->
  is_RInt_gen phi (at_point a) (Rbar_locally p_infty) l -> is_RInt_gen g (at_point 0) (at_left 1) l.
Proof.
  intros C V H. apply (gen_pos phi a l C) in H. eapply is_RInt_gen_ext; [|exact H].
  exists (fun t => t = 0) (fun t => 0 < t < 1).
  - reflexivity.
  - exists (mkposreal 1 Rlt_0_1). intros t Ht L. change (Rabs (t - 1) < 1) in Ht. apply Rabs_def2 in Ht. lra.
  - intros u v -> Hv t Ht. cbn [fst snd] in Ht. rewrite Rmin_left, Rmax_right in Ht by lra. destruct (V t ltac:(lra)) as (c & E). rewrite semi_pos_g_spec in E by lra. injection E as _ <-. reflexivity.
Qed.
Theorem C43_neg_improper phi g a (l : R) : (forall y, y <= a -> continuous phi y) ->
  (forall t, 0 <= t < 1 -> exists c, semi_neg_g (feval (fun y => Ok (phi y))) a t = (c, Ok (g t))) ->
  is_RInt_gen phi (Rbar_locally m_infty) (at_point a) l -> is_RInt_gen g (at_point 0) (at_left 1) l.
Proof.
  intros C V H. apply (gen_neg phi a l C) in H. eapply is_RInt_gen_ext; [|exact H].
  exists (fun t => t = 0) (fun t => 0 < t < 1).
  - reflexivity.
  - exists (mkposreal 1 Rlt_0_1). intros t Ht L. change (Rabs (t - 1) < 1) in Ht. apply Rabs_def2 in Ht. lra.
  - intros u v -> Hv t Ht. cbn [fst snd] in Ht. rewrite Rmin_left, Rmax_right in Ht by lra. destruct (V t ltac:(lra)) as (c & E). rewrite semi_neg_g_spec in E by lra. injection E as _ <-. reflexivity.
Qed.

(** ** Runs.  quadgk on an infinite interval returns what quadgk returns for the
    transformed integrand and break points; the user's function is called at the images
    of the points where the transformed integrand is called. *)
Lemma quadgk_fin eigvalsh hq f ms abstol reltol maxevals n : (2 <= length ms)%nat ->
  quadgk eigvalsh hq f (map Fin ms) abstol reltol maxevals n = quadgk_finite eigvalsh hq (feval f) (map Fin ms) n abstol reltol maxevals.
Proof.
  intros L2. unfold quadgk. rewrite map_length. destruct (Nat.ltb_spec (length ms) 2); [lia|]. unfold do_quadgk.
  assert (H1 : exists a, hd PInf (map Fin ms) = Fin a) by (destruct ms as [|a ms]; [cbn in L2; lia|now exists a]).
  assert (H2 : exists b, last (map Fin ms) PInf = Fin b).
  { destruct (exists_last (l := ms)) as (l' & y & ->); [intros ->; cbn in L2; lia|]. exists y. rewrite map_app. cbn [map]. apply last_last. }
  destruct H1 as [a H1], H2 as [b H2]. cbv zeta. now rewrite H1, H2.
Qed.
Lemma mapM_app' {A B} (f : A -> res B) l1 l2 r1 r2 : mapM f l1 = Ok r1 -> mapM f l2 = Ok r2 -> mapM f (l1 ++ l2) = Ok (r1 ++ r2).
Proof.
  revert r1. induction l1 as [|a l1 IH]; intros r1 E1 E2; cbn [mapM app] in *.
  - injection E1 as <-. exact E2.
  - destruct (f a) as [b|]; cbn [bind] in *; [|discriminate]. destruct (mapM f l1) as [r|]; cbn [bind] in *; [|discriminate]. injection E1 as <-. now rewrite (IH r eq_refl E2).
Qed.
Lemma mapM_fin {B} (f : pt -> res B) (g : R -> B) xs : (forall x, In x xs -> f (Fin x) = Ok (g x)) -> mapM f (map Fin xs) = Ok (map g xs).
Proof.
  induction xs as [|x xs IH]; intros H; [reflexivity|]. cbn [map mapM]. rewrite H by now left. cbn [bind]. rewrite IH by (intros; apply H; now right). reflexivity.
Qed.
Section Runs.
  Context (eigvalsh : eigvalsh_t) (hq : heapq_t) (n : nat) (x w gw : list R) (phi : R -> R) (abstol reltol : R) (maxevals : nat).
  Hypothesis HS : eigvalsh_sized eigvalsh.
  Hypothesis HQ : heap_ok seg_lt hq.
  Hypothesis Hn : (1 <= n)%nat.
  Hypothesis HK : kronrod eigvalsh n = Ok (x, w, gw).
  Hypothesis HI : inner_nodes x.
  Lemma rule_sized : rule_size n (x, w, gw).
  Proof. destruct (proj2 (C41_size eigvalsh n HS) Hn) as (data & E & H). congruence. Qed.
  Lemma run_transformed h psi p lo ms hi : StronglySorted Rlt (lo :: ms ++ [hi]) -> (forall t, lo < t < hi -> agrees h psi p t) ->
    exists calls r, quadgk eigvalsh hq (fun t => Ok (psi t)) (map Fin (lo :: ms ++ [hi])) abstol reltol maxevals n = (calls, Ok r)
      /\ quadgk_finite eigvalsh hq h (map Fin (lo :: ms ++ [hi])) n abstol reltol maxevals = (map p calls, Ok r)
      /\ forall t, In t calls -> lo < t < hi.
  Proof.
    intros S AG. assert (L2 : (2 <= length (lo :: ms ++ [hi]))%nat) by (cbn; rewrite app_length; cbn; lia).
    destruct (C42_quadgk eigvalsh hq psi (lo :: ms ++ [hi]) abstol reltol maxevals n HS HQ Hn L2) as (k & m & vals & errs & calls & I & E & _ & R & _).
    exists calls, (I, E). split; [easy|]. rewrite quadgk_fin in R by easy.
    assert (IN : forall t, In t calls -> lo < t < hi).
    { refine (quadgk_calls psi n x w gw hq Hn rule_sized HI HQ lo hi eigvalsh (lo :: ms ++ [hi]) abstol reltol maxevals calls (I, E) HK L2 _ R). now apply sorted_panels. }
    split; [|easy]. apply (simr_quadgk h psi p eigvalsh hq _ n abstol reltol maxevals calls (I, E) R). intros t Ht. apply AG, IN, Ht.
  Qed.
  Lemma sorted_map (f : R -> R) (D : R -> Prop) l : (forall s t, D s -> D t -> s < t -> f s < f t) -> Forall D l -> StronglySorted Rlt l -> StronglySorted Rlt (map f l).
  Proof.
    intros H F S. induction S as [|a l S IH HA]; cbn [map]; [constructor|]. apply Forall_cons_iff in F. destruct F as [F1 F2]. constructor; [now apply IH|].
    rewrite Forall_forall in *. intros y Hy. apply in_map_iff in Hy. destruct Hy as (z & <- & Hz). apply H; auto.
  Qed.
  Lemma sorted_ends lo l hi : StronglySorted Rlt l -> (forall y, In y l -> lo < y < hi) -> lo < hi -> StronglySorted Rlt (lo :: l ++ [hi]).
  Proof.
    intros S B L. constructor.
    - induction S as [|a l S IH HA]; cbn [app]; [repeat constructor|]. constructor; [apply IH; intros; apply B; now right|].
      rewrite Forall_forall in *. intros y Hy. apply in_app_or in Hy. destruct Hy as [Hy|[<-|[]]]; [now apply HA|]. apply B. now left.
    - rewrite Forall_forall. intros y Hy. apply in_app_or in Hy. destruct Hy as [Hy|[<-|[]]]; [now apply B|easy].
  Qed.

  (** (-inf, inf), with strictly increasing finite break points [xs] *)
  Theorem C43_both_run xs : StronglySorted Rlt xs ->
    exists ts calls r, map (fun t => t / (1 - t ^ 2)) ts = xs /\ StronglySorted Rlt (-1 :: ts ++ [1])
      /\ quadgk eigvalsh hq (fun t => Ok (phi (t / (1 - t ^ 2)) * Derive (fun s => s / (1 - s ^ 2)) t)) (map Fin (-1 :: ts ++ [1])) abstol reltol maxevals n = (calls, Ok r)
      /\ quadgk eigvalsh hq (fun y => Ok (phi y)) (MInf :: map Fin xs ++ [PInf]) abstol reltol maxevals n = (map (fun t => t / (1 - t ^ 2)) calls, Ok r)
      /\ forall t, In t calls -> -1 < t < 1.
  Proof.
    intros S. exists (map Tb xs).
    assert (SS : StronglySorted Rlt (-1 :: map Tb xs ++ [1])).
    { apply sorted_ends; [|intros y Hy; apply in_map_iff in Hy; destruct Hy as (z & <- & _); apply Tb_range|lra].
      apply (sorted_map Tb (fun _ => True)); [|now apply Forall_forall|easy].
      intros s t _ _ L. pose proof (Tb_range s). pose proof (Tb_range t). destruct (Rtotal_order (Tb s) (Tb t)) as [G|[G|G]]; [easy| |].
      - rewrite <- (Xb_Tb s), <- (Xb_Tb t), G in L. lra.
      - pose proof (Xb_incr (Tb t) (Tb s) ltac:(lra) G ltac:(lra)) as Q. rewrite !Xb_Tb in Q. lra. }
    set (psi := fun t => phi (t / (1 - t ^ 2)) * Derive (fun s => s / (1 - s ^ 2)) t).
    destruct (run_transformed (both_inf_g (feval (fun y => Ok (phi y)))) psi Xb (-1) (map Tb xs) 1 SS) as (calls & r & R1 & R2 & R3).
    { intros t Ht. exact (C43_both_integrand phi t Ht). }
    exists calls, r. split; [|split; [easy|split; [exact R1|split; [|easy]]]].
    - rewrite map_map. transitivity (map (fun y => y) xs); [|apply map_id]. apply map_ext. exact Xb_Tb.
    - unfold quadgk. cbn [length]. rewrite app_length. cbn [length]. destruct (Nat.ltb_spec (Datatypes.S (length (map Fin xs) + 1)) 2); [lia|].
      unfold do_quadgk. cbv zeta. cbn [hd]. change (MInf :: map Fin xs ++ [PInf]) with ((MInf :: map Fin xs) ++ [PInf]). rewrite last_last.
      assert (M : mapM both_inf_map ((MInf :: map Fin xs) ++ [PInf]) = Ok ((-1 :: map Tb xs) ++ [1])).
      { apply mapM_app'; [|reflexivity]. cbn [mapM both_inf_map bind]. rewrite (mapM_fin both_inf_map Tb) by reflexivity. reflexivity. }
      rewrite M. cbn [tlift]. change (map (fun t => t / (1 - t ^ 2)) calls) with ([] ++ map Xb calls). apply tbind_ok. exact R2.
  Qed.
  (** (a, inf) *)
  Theorem C43_pos_run a xs : StronglySorted Rlt (a :: xs) ->
    exists ts calls r, map (fun t => a + t / (1 - t)) ts = xs /\ StronglySorted Rlt (0 :: ts ++ [1])
      /\ quadgk eigvalsh hq (fun t => Ok (phi (a + t / (1 - t)) * Derive (fun s => a + s / (1 - s)) t)) (map Fin (0 :: ts ++ [1])) abstol reltol maxevals n = (calls, Ok r)
      /\ quadgk eigvalsh hq (fun y => Ok (phi y)) (Fin a :: map Fin xs ++ [PInf]) abstol reltol maxevals n = (map (fun t => a + t / (1 - t)) calls, Ok r)
      /\ forall t, In t calls -> 0 < t < 1.
  Proof.
    intros S. inversion S as [|? ? S1 S2]; subst. rewrite Forall_forall in S2. set (T := fun y => Ts (y - a)). exists (map T xs).
    assert (TI : forall s t, a <= s -> s < t -> T s < T t).
    { intros s t Ls L. unfold T. pose proof (Ts_range (s - a) ltac:(lra)). pose proof (Ts_range (t - a) ltac:(lra)). destruct (Rtotal_order (Ts (s - a)) (Ts (t - a))) as [G|[G|G]]; [easy| |].
      - pose proof (Xp_Ts a (s - a) ltac:(lra)) as Q1. pose proof (Xp_Ts a (t - a) ltac:(lra)) as Q2. rewrite G in Q1. lra.
      - pose proof (Xp_incr a (Ts (t - a)) (Ts (s - a)) G ltac:(lra)) as Q. rewrite !Xp_Ts in Q by lra. lra. }
    assert (T0 : T a = 0) by (unfold T, Ts; field; lra).
    assert (SS : StronglySorted Rlt (0 :: map T xs ++ [1])).
    { apply sorted_ends; [| |lra].
      - apply (sorted_map T (fun y => a <= y)); [intros; now apply TI| |easy]. rewrite Forall_forall. intros y Hy. apply Rlt_le, S2, Hy.
      - intros y Hy. apply in_map_iff in Hy. destruct Hy as (z & <- & Hz). apply S2 in Hz. split; [rewrite <- T0; now apply TI; try lra|]. unfold T. apply Ts_range. lra. }
    set (psi := fun t => phi (a + t / (1 - t)) * Derive (fun s => a + s / (1 - s)) t).
    destruct (run_transformed (semi_pos_g (feval (fun y => Ok (phi y))) a) psi (Xp a) 0 (map T xs) 1 SS) as (calls & r & R1 & R2 & R3).
    { intros t Ht. apply (C43_pos_integrand phi a t). lra. }
    exists calls, r. split; [|split; [easy|split; [exact R1|split; [|easy]]]].
    - rewrite map_map. transitivity (map (fun y => y) xs); [|apply map_id]. apply map_ext_in. intros y Hy. apply S2 in Hy. change (Xp a (T y) = y). unfold T. rewrite Xp_Ts; lra.
    - unfold quadgk. cbn [length]. rewrite app_length. cbn [length]. destruct (Nat.ltb_spec (Datatypes.S (length (map Fin xs) + 1)) 2); [lia|].
      unfold do_quadgk. cbv zeta. cbn [hd]. change (Fin a :: map Fin xs ++ [PInf]) with ((Fin a :: map Fin xs) ++ [PInf]). rewrite last_last.
      assert (M : mapM (semi_pos_map a) ((Fin a :: map Fin xs) ++ [PInf]) = Ok ((0 :: map T xs) ++ [1])).
      { apply mapM_app'; [|reflexivity]. rewrite <- T0. apply (mapM_fin (semi_pos_map a) T (a :: xs)). intros y [<-|Hy]; cbn [semi_pos_map]; apply semi_map_spec; [lra|]. apply S2 in Hy. lra. }
      rewrite M. cbn [tlift]. change (map (fun t => a + t / (1 - t)) calls) with ([] ++ map (Xp a) calls). apply tbind_ok. exact R2.
  Qed.
  (** (-inf, a) *)
  Theorem C43_neg_run a xs : StronglySorted Rlt (xs ++ [a]) ->
    exists ts calls r, map (fun t => a - t / (1 - t)) ts = rev xs /\ StronglySorted Rlt (0 :: ts ++ [1])
      /\ quadgk eigvalsh hq (fun t => Ok (phi (a - t / (1 - t)) * - Derive (fun s => a - s / (1 - s)) t)) (map Fin (0 :: ts ++ [1])) abstol reltol maxevals n = (calls, Ok r)
      /\ quadgk eigvalsh hq (fun y => Ok (phi y)) (MInf :: map Fin (xs ++ [a])) abstol reltol maxevals n = (map (fun t => a - t / (1 - t)) calls, Ok r)
      /\ forall t, In t calls -> 0 < t < 1.
  Proof.
    intros S. set (T := fun y => Ts (a - y)). exists (map T (rev xs)).
    assert (S2 : forall y, In y xs -> y < a).
    { clear -S. induction xs as [|z xs IH]; intros y Hy; [easy|]. cbn [app] in S. inversion S as [|? ? S1 S3]; subst. rewrite Forall_forall in S3.
      destruct Hy as [<-|Hy]; [apply S3, in_or_app; right; now left|now apply IH]. }
    assert (TI : forall s t, t <= a -> s < t -> T t < T s).
    { intros s t Ls L. unfold T. pose proof (Ts_range (a - s) ltac:(lra)). pose proof (Ts_range (a - t) ltac:(lra)). destruct (Rtotal_order (Ts (a - t)) (Ts (a - s))) as [G|[G|G]]; [easy| |].
      - pose proof (Xp_Ts a (a - s) ltac:(lra)) as Q1. pose proof (Xp_Ts a (a - t) ltac:(lra)) as Q2. rewrite G in Q2. lra.
      - pose proof (Xp_incr a (Ts (a - s)) (Ts (a - t)) G ltac:(lra)) as Q. rewrite !Xp_Ts in Q by lra. lra. }
    assert (T0 : T a = 0) by (unfold T, Ts; field; lra).
    assert (SR : StronglySorted Rlt (map T (rev xs))).
    { clear -S S2 TI. induction xs as [|z xs IH]; cbn [rev map]; [constructor|]. cbn [app] in S. inversion S as [|? ? S1 S3]; subst. rewrite Forall_forall in S3.
      rewrite map_app. cbn [map]. assert (Q : forall (l : list R) u, StronglySorted Rlt l -> (forall v, In v l -> v < u) -> StronglySorted Rlt (l ++ [u])).
      { clear. induction l as [|v l IH]; intros u S B; cbn [app]; [repeat constructor|]. inversion S as [|? ? S1 S2]; subst. constructor; [apply IH; [easy|intros; apply B; now right]|].
        rewrite Forall_forall in *. intros y Hy. apply in_app_or in Hy. destruct Hy as [Hy|[<-|[]]]; [now apply S2|apply B; now left]. }
      apply Q; [apply IH; [easy|intros; apply S2; now right]|]. intros v Hv. apply in_map_iff in Hv. destruct Hv as (y & <- & Hy). apply in_rev in Hy.
      apply TI; [apply Rlt_le, S2; now right|]. apply S3, in_or_app. now left. }
    assert (SS : StronglySorted Rlt (0 :: map T (rev xs) ++ [1])).
    { apply sorted_ends; [easy| |lra]. intros y Hy. apply in_map_iff in Hy. destruct Hy as (z & <- & Hz). apply in_rev in Hz. apply S2 in Hz.
      split; [rewrite <- T0; apply TI; lra|]. unfold T. apply Ts_range. lra. }
    set (psi := fun t => phi (a - t / (1 - t)) * - Derive (fun s => a - s / (1 - s)) t).
    destruct (run_transformed (semi_neg_g (feval (fun y => Ok (phi y))) a) psi (Xn a) 0 (map T (rev xs)) 1 SS) as (calls & r & R1 & R2 & R3).
    { intros t Ht. apply (C43_neg_integrand phi a t). lra. }
    exists calls, r. split; [|split; [easy|split; [exact R1|split; [|easy]]]].
    - rewrite map_map. transitivity (map (fun y => y) (rev xs)); [|apply map_id]. apply map_ext_in. intros y Hy. apply in_rev in Hy. apply S2 in Hy. change (Xn a (T y) = y). unfold T. rewrite Xn_Ts; lra.
    - unfold quadgk. cbn [length]. rewrite map_length, app_length. cbn [length]. destruct (Nat.ltb_spec (Datatypes.S (length xs + 1)) 2); [lia|].
      unfold do_quadgk. cbv zeta. cbn [hd]. rewrite map_app. cbn [map]. change (MInf :: map Fin xs ++ [Fin a]) with ((MInf :: map Fin xs) ++ [Fin a]). rewrite last_last.
      assert (M : mapM (semi_neg_map a) ((MInf :: map Fin xs) ++ [Fin a]) = Ok ((1 :: map T xs) ++ [0])).
      { apply mapM_app'.
        - cbn [mapM semi_neg_map bind]. rewrite (mapM_fin (semi_neg_map a) T); [reflexivity|]. intros y Hy. cbn [semi_neg_map]. apply semi_map_spec. apply S2 in Hy. lra.
        - cbn [mapM semi_neg_map]. rewrite semi_map_spec by lra. cbn [bind]. fold (T a). now rewrite T0. }
      rewrite M. cbn [tlift]. change (map (fun t => a - t / (1 - t)) calls) with ([] ++ map (Xn a) calls). apply tbind_ok.
      rewrite rev_app_distr. cbn [rev app]. rewrite <- map_rev. exact R2.
  Qed.
End Runs.

(** ** Reversed limits *)
(** One panel: the integral changes its sign, the error estimate does not. *)
Theorem C43_reverse_panel n data phi a b : (1 <= n)%nat -> rule_size n data ->
  let '(x, w, gw) := data in
  exists c c' s s', evalrule (feval (fun t => Ok (phi t))) (Fin a) (Fin b) x w gw = (c, Ok s)
    /\ evalrule (feval (fun t => Ok (phi t))) (Fin b) (Fin a) x w gw = (c', Ok s')
    /\ seg_int s' = - seg_int s /\ seg_err s' = seg_err s /\ Permutation c' c.
Proof.
  intros Hn. destruct data as [[x w] gw]. intros HR. destruct (C41_panel n (x, w, gw) phi a b Hn HR) as (c & KI & GI & s & E & _).
  destruct (evalrule_reverse phi a b x w gw n c s Hn HR E) as (c' & E' & P). exists c, c', s, (mirror s). auto.
Qed.
(** A whole run, unless two panels compete for the largest error at some step (then the
    two runs may split different ones). *)
Theorem C43_reverse eigvalsh hq phi ms abstol reltol maxevals n calls I E :
  eigvalsh_sized eigvalsh -> heap_ok seg_lt hq -> (1 <= n)%nat -> (2 <= length ms)%nat ->
  (forall x w gw l h, kronrod eigvalsh n = Ok (x, w, gw) -> initial_heap hq (feval (fun t => Ok (phi t))) x w gw (map Fin ms) [] = (l, Ok h) ->
     no_ties phi n x w gw hq abstol reltol maxevals maxevals (initial_state n h)) ->
  quadgk eigvalsh hq (fun t => Ok (phi t)) (map Fin ms) abstol reltol maxevals n = (calls, Ok (I, E)) ->
  exists calls', quadgk eigvalsh hq (fun t => Ok (phi t)) (map Fin (rev ms)) abstol reltol maxevals n = (calls', Ok (- I, E))
    /\ Permutation calls' calls.
Proof.
  intros HS HQ Hn L2 NT R. pose proof HQ as (inv & I0 & I1 & I2).
  rewrite quadgk_fin in * by (try rewrite rev_length; easy).
  destruct (proj2 (C41_size eigvalsh n HS) Hn) as (data & ED & HR). destruct data as [[x w] gw]. pose proof HR as (Lx & Lw & Lg).
  unfold quadgk_finite in *. rewrite ED in *. cbn [tlift] in *. tinv R. injection T as <- <-. tinv T0. rename a into h. tinv T1. rename a into st. unfold tret in T2. injection T2 as <- <- <-.
  destruct (initial_mirrored phi n x w gw hq inv Hn HR I1 ms _ _ I0 T) as (l' & h' & E' & M & P & V & V').
  destruct (initial_good hq _ n x w gw (feval_one_eval _) Hn Lx Lg inv I0 I1 ms _ _ T) as [_ G0].
  pose proof (heap_ne _ n x w gw Hn Lx Lg _ _ _ L2 G0) as NE.
  destruct (adapt_mirrored phi n x w gw hq inv Hn HR I1 I2 abstol reltol maxevals maxevals (initial_state n h) (initial_state n h') _ _ V V' NE (NT _ _ _ _ _ eq_refl T) M T0) as (l'' & st' & A & (M1 & M2 & M3 & M4) & PA).
  exists ([] ++ l' ++ l'' ++ []). split.
  - apply tbind_ok. rewrite E'. apply tbind_ok. rewrite A. apply tbind_ok. unfold tret. do 2 f_equal. rewrite !sum_by_seg_sum, (seg_sum_perm _ _ _ M1), (seg_sum_perm seg_err _ _ M1). f_equal.
    + unfold seg_sum. clear. induction (gk_heap st) as [|s h IH]; cbn [map fold_right]; [ring|]. rewrite IH. cbn [mirror seg_int]. ring.
    + unfold seg_sum. rewrite map_map. reflexivity.
  - cbn [app]. rewrite !app_nil_r. now apply Permutation_app.
Qed.

(** ** Reversed infinite limits: the wrong half-line *)
(** quadgk(f, a, -inf) and quadgk(f, inf, a) are computed as quadgk(f, a, inf) and
    quadgk(f, -inf, a): the sign of the infinite end is not looked at. *)
Theorem C43_wrong_end eigvalsh hq f a abstol reltol maxevals n :
  quadgk eigvalsh hq f [Fin a; MInf] abstol reltol maxevals n = quadgk eigvalsh hq f [Fin a; PInf] abstol reltol maxevals n
  /\ quadgk eigvalsh hq f [PInf; Fin a] abstol reltol maxevals n = quadgk eigvalsh hq f [MInf; Fin a] abstol reltol maxevals n.
Proof. split; reflexivity. Qed.
Lemma eigvec1_pos b z m : 0 < eigvec1 b z m 0%nat ^ 2.
Proof.
  unfold eigvec1. destruct (1 <? m)%nat; [|unfold upd; cbn; lra].
  set (v1 := upd (upd (fun _ => 0) 0 1) 1 (z * upd (fun _ => 0) 0 1 0%nat / b 0%nat)).
  assert (Q : forall l v s, (forall i, In i l -> (2 <= i)%nat) -> 1 <= s -> v 0%nat = 1 -> let '(v', s') := fold_left (eigvec1_step b z) l (v, s) in 1 <= s' /\ v' 0%nat = 1).
  { induction l as [|i l IH]; intros v s H1 H2 H3; [now split|]. cbn [fold_left eigvec1_step]. apply IH; [intros; apply H1; now right| |].
    - set (u := upd v i _). pose proof (pow2_ge_0 (u i)). lra.
    - unfold upd. destruct (Nat.eqb_spec 0 i); [|easy]. specialize (H1 i (or_introl eq_refl)). lia. }
  specialize (Q (seq 2 (m - 2)) v1 (upd (fun _ : nat => 0) 0 1 0%nat ^ 2 + v1 1%nat ^ 2)).
  destruct (fold_left (eigvec1_step b z) (seq 2 (m - 2)) (v1, upd (fun _ : nat => 0) 0 1 0%nat ^ 2 + v1 1%nat ^ 2)) as [v s].
  destruct Q as [Q1 Q2].
  - intros i Hi. apply in_seq in Hi. lia.
  - replace (upd (fun _ : nat => 0) 0 1 0%nat) with 1 by reflexivity. pose proof (pow2_ge_0 (v1 1%nat)). lra.
  - reflexivity.
  - rewrite Q2. apply pow_lt. apply Rdiv_lt_0_compat; [lra|]. apply sqrt_lt_R0. lra.
Qed.
(** All weights that kronrod returns are positive. *)
Theorem C43_weights_positive eigvalsh n x w gw : kronrod eigvalsh n = Ok (x, w, gw) -> (forall c, In c w -> 0 < c) /\ (forall c, In c gw -> 0 < c).
Proof.
  unfold kronrod. destruct (n <? 1)%nat; [discriminate|]. cbv zeta. intros E. injection E as _ <- <-.
  split; intros c Hc; apply in_map_iff in Hc; destruct Hc as (i & <- & _); (apply Rmult_lt_0_compat; [lra|apply eigvec1_pos]).
Qed.
(** An integrand that vanishes on (-inf, 0]: the result for (0, -inf) should be 0, it is
    positive, whatever rule is used. *)
Definition one_sided (y : R) : R := if Rlt_dec 0 y then 1 / (1 + y) ^ 2 else 0.
Lemma dotR_pos (v w : list R) : length v = length w -> v <> [] -> (forall a, In a v -> 0 < a) -> (forall a, In a w -> 0 < a) -> 0 < dotR v w.
Proof.
  revert w. induction v as [|a v IH]; intros [|b w] L NE H1 H2; try discriminate; [congruence|]. unfold dotR. cbn [combine map fold_right fst snd].
  assert (0 < a * b) by (apply Rmult_lt_0_compat; [apply H1|apply H2]; now left). fold (dotR v w). destruct v as [|a' v].
  - unfold dotR. cbn. lra.
  - assert (0 < dotR (a' :: v) w); [|lra]. apply IH; [cbn in *; lia|discriminate|intros; apply H1; now right|intros; apply H2; now right].
Qed.
Lemma kron_weights_pos n x w gw : length w = (n + 1)%nat -> (forall c, In c w -> 0 < c) ->
  (forall c, In c (kr_weights (assemble_kronrod n (x, w, gw))) -> 0 < c) /\ (forall c, In c (kr_gauss_weights (assemble_kronrod n (x, w, gw))) -> 0 < c).
Proof.
  intros Lw HW. assert (E1 : forall y, In y (every2 w) -> 0 < y) by (intros y Hy; apply HW, (in_every2 (length w)); auto).
  assert (E2 : forall y, In y (every2 (tl w)) -> 0 < y).
  { intros y Hy. apply HW. apply (in_every2 (length (tl w))) in Hy; auto. destruct w; [easy|now right]. }
  assert (S1 : forall l : list R, (forall y, In y l -> 0 < y) -> forall y, In y (l ++ rev l) -> 0 < y).
  { intros l Hl y Hy. apply in_app_or in Hy. destruct Hy as [Hy|Hy]; [now apply Hl|]. apply in_rev in Hy. now apply Hl. }
  assert (S2 : forall (l : list R) c, (forall y, In y l -> 0 < y) -> 0 < c -> forall y, In y (l ++ [c] ++ rev l) -> 0 < y).
  { intros l c Hl Hc y Hy. apply in_app_or in Hy. destruct Hy as [Hy|[<-|Hy]]; [now apply Hl|easy|]. apply in_rev in Hy. now apply Hl. }
  assert (LP : forall l : list R, l <> [] -> (forall y, In y l -> 0 < y) -> 0 < last l 0).
  { intros l NE Hl. apply Hl. rewrite last_nth by easy. apply nth_In. destruct l; [easy|cbn; lia]. }
  assert (NW : w <> []) by (intros ->; cbn in Lw; lia).
  assert (NE : every2 w <> []) by (destruct w as [|a [|b w']]; [easy|discriminate|discriminate]).
  unfold assemble_kronrod. destruct (n mod 2 =? 1)%nat; cbn [kr_weights kr_gauss_weights]; split.
  - exact (S1 _ E1).
  - apply (S2 (removelast (every2 (tl w))) (last w 0)); [intros y Hy; apply E2, in_removelast, Hy|now apply LP].
  - apply (S2 (removelast (every2 w)) (last (every2 w) 0)); [intros y Hy; apply E1, in_removelast, Hy|now apply LP].
  - exact (S1 _ E2).
Qed.
Lemma kr_call_pos n x w gw psi v : rule_size n (x, w, gw) -> (forall c, In c w -> 0 < c) -> (1 <= n)%nat ->
  (forall y, In y (kr_nodes (assemble_kronrod n (x, w, gw))) -> 0 < psi y) ->
  (forall p, In p (q_nodes (kr_gauss (assemble_kronrod n (x, w, gw)))) -> 0 < psi (nth 0 p 0)) ->
  kr_call (assemble_kronrod n (x, w, gw)) (fun y => Ok (psi y)) = Ok v -> 0 < v.
Proof.
  intros HR HW Hn P1 P2 E. pose proof HR as (Lx & Lw & Lg). destruct (C41_panel n (x, w, gw) (fun y => psi y) (-1) 1 Hn HR) as (_ & _ & _ & _ & _ & _ & _ & _ & _ & _ & _ & _ & _ & LG & LK).
  set (k := assemble_kronrod n (x, w, gw)) in *. unfold kr_call in E. rewrite (mapM_total (fun p => psi (nth 0 p 0))) in E. cbn [bind] in E.
  destruct (Nat.eqb_spec (length (map (fun p => psi (nth 0 p 0)) (q_nodes (kr_gauss k)))) (length (kr_gauss_weights k))) as [M1|]; [|discriminate]. cbn [negb] in E.
  rewrite mapM_total in E. cbn [bind] in E. destruct (Nat.eqb_spec (length (map psi (kr_nodes k))) (length (kr_weights k))) as [M2|]; [|discriminate]. cbn [negb] in E.
  assert (v = dotR (map (fun p => psi (nth 0 p 0)) (q_nodes (kr_gauss k))) (kr_gauss_weights k) + dotR (map psi (kr_nodes k)) (kr_weights k)) as -> by congruence.
  pose proof (kron_weights_pos n x w gw Lw HW) as WP. fold k in WP.
  destruct WP as [W1 W2]. apply Rplus_lt_0_compat; apply dotR_pos; auto.
  - intros E0. apply (f_equal (@length R)) in E0. rewrite map_length in E0, LG. cbn [length] in E0. lia.
  - intros a Ha. apply in_map_iff in Ha. destruct Ha as (p & <- & Hp). now apply P2.
  - intros E0. apply (f_equal (@length R)) in E0. rewrite map_length in E0. cbn [length] in E0. lia.
  - intros a Ha. apply in_map_iff in Ha. destruct Ha as (p & <- & Hp). now apply P1.
Qed.
Theorem C43_wrong_half_line_refuted eigvalsh hq n x w gw abstol reltol maxevals :
  eigvalsh_sized eigvalsh -> heap_ok seg_lt hq -> (1 <= n)%nat -> kronrod eigvalsh n = Ok (x, w, gw) -> inner_nodes x ->
  exists phi : R -> R, (forall y, y <= 0 -> phi y = 0)
    /\ exists calls I E, quadgk eigvalsh hq (fun y => Ok (phi y)) [Fin 0; MInf] abstol reltol maxevals n = (calls, Ok (I, E)) /\ 0 < I.
Proof.
  intros HS HQ Hn HK HI. exists one_sided. split; [intros y Hy; unfold one_sided; destruct (Rlt_dec 0 y); [lra|easy]|].
  rewrite (proj1 (C43_wrong_end eigvalsh hq (fun y => Ok (one_sided y)) 0 abstol reltol maxevals n)).
  destruct (C43_pos_run eigvalsh hq n x w gw one_sided abstol reltol maxevals HS HQ Hn HK HI 0 [] ltac:(repeat constructor)) as (ts & calls & [I E] & T1 & T2 & T3 & T4 & T5).
  exists (map (fun t => 0 + t / (1 - t)) calls), I, E. split; [exact T4|]. clear T4.
  assert (TN : ts = []) by (destruct ts; [easy|discriminate]). subst ts. cbn [app map] in T3. clear T1 T2.
  pose proof (rule_sized eigvalsh n x w gw HS Hn HK) as HR.
  set (psi := fun t => one_sided (0 + t / (1 - t)) * Derive (fun s => 0 + s / (1 - s)) t) in *.
  assert (PP : forall t, 0 < t < 1 -> 0 < psi t).
  { intros t Ht. unfold psi. change (Derive (fun s => 0 + s / (1 - s)) t) with (Derive (Xp 0) t). rewrite (is_derive_unique _ _ _ (Xp_deriv 0 t (proj2 Ht))).
    assert (0 < t / (1 - t)) by (apply Rdiv_lt_0_compat; lra). unfold one_sided. destruct (Rlt_dec 0 (0 + t / (1 - t))); [|lra].
    apply Rmult_lt_0_compat; [apply Rdiv_lt_0_compat; [lra|apply pow_lt; lra]|]. unfold dXp. apply Rinv_0_lt_compat, pow_lt. lra. }
  destruct (C42_quadgk eigvalsh hq psi [0; 1] abstol reltol maxevals n HS HQ Hn ltac:(cbn; lia)) as (k & m & vals & errs & calls' & I' & E' & K1 & K2 & K3 & K4 & K5 & K6 & _).
  assert (EI : I' = I). { change (quadgk eigvalsh hq (fun t => Ok (psi t)) (map Fin [0; 1]) abstol reltol maxevals n = (calls, Ok (I, E))) in T3. rewrite T3 in K2. congruence. }
  unfold make_kronrod_quadrature in K1. rewrite HK in K1. cbn [bind] in K1. assert (k = assemble_kronrod n (x, w, gw)) as -> by congruence. clear K1.
  destruct (C43_weights_positive eigvalsh n x w gw HK) as [WP _].
  assert (SP : forall a b, In (a, b) (panels m) -> 0 <= a /\ a < b /\ b <= 1).
  { assert (Q : forall m0 m, bisected m0 m -> (forall a b, In (a, b) (panels m0) -> 0 <= a /\ a < b /\ b <= 1) -> forall a b, In (a, b) (panels m) -> 0 <= a /\ a < b /\ b <= 1).
    { clear. induction 1 as [|l a b r H IH]; intros P0; [easy|]. specialize (IH P0). intros u v Huv. apply (Permutation_in _ (panels_bisect _ _ _ _ _)) in Huv.
      assert (AB : 0 <= a /\ a < b /\ b <= 1) by (apply IH; rewrite panels_split; now left).
      destruct Huv as [E|[E|Huv]]; [injection E as <- <-; lra|injection E as <- <-; lra|]. apply IH. rewrite panels_split. now right. }
    apply (Q _ _ K3). intros a b [E1|[]]. injection E1 as <- <-. lra. }
  pose proof (assembled_inner n x w gw HI) as IN. cbv zeta in IN.
  assert (VP : forall v, In v vals -> 0 < v).
  { clear -K4 SP PP IN HR WP Hn. induction K4 as [|[a b] v ps vs HP H IH]; [easy|]. intros u [<-|Hu]; [|apply IH; [intros; apply SP; now right|easy]].
    destruct HP as (KI & C1 & ->). cbn [fst snd] in *. destruct (SP a b (or_introl eq_refl)) as (S1 & S2 & S3). apply Rmult_lt_0_compat; [lra|].
    refine (kr_call_pos n x w gw (fun y => psi ((a + b) / 2 + (b - a) / 2 * y)) KI HR WP Hn _ _ C1).
    - intros y Hy. apply PP. assert (-1 < y < 1) by (apply IN, in_or_app; now right). nra.
    - intros p Hp. apply PP. assert (-1 < nth 0 p 0 < 1) by (apply IN, in_or_app; left; apply in_map_iff; now exists p). nra. }
  assert (NV : vals <> []).
  { intros ->. inversion K4 as [E0|]. destruct (bisected_ends _ _ K3) as (_ & _ & B & _). destruct m as [|? [|? ?]]; cbn in B; try lia. discriminate. }
  rewrite <- EI, K6. destruct vals as [|v vals]; [easy|]. cbn [fold_right]. assert (0 < v) by (apply VP; now left).
  assert (0 <= fold_right Rplus 0 vals); [|lra]. clear -VP. induction vals as [|u vals IH]; cbn [fold_right]; [lra|].
  assert (0 < u) by (apply VP; right; now left). assert (0 <= fold_right Rplus 0 vals); [|lra]. apply IH. intros v0 [<-|H0]; apply VP; [now left|right; now right].
Qed.

(** ** Hypotheses are met *)
(** exp(-y^2) is continuous; a rule with interior nodes; the first bisection never
    sees a tie. *)
Example C43_cont_ex : forall y, continuous (fun y => exp (- y ^ 2)) y.
Proof. intros y. apply (ex_derive_continuous (K := R_AbsRing) (V := R_NormedModule)). auto_derive. easy. Qed.
Example C43_inner_ex : inner_nodes [-9/10; -1/2; 0].
Proof. intros y [<-|[<-|[<-|[]]]]; lra. Qed.
Example C43_no_ties_ex phi n x w gw a b abstol reltol l h : (1 <= n)%nat -> rule_size n (x, w, gw) ->
  initial_heap list_heap (feval (fun t => Ok (phi t))) x w gw [Fin a; Fin b] [] = (l, Ok h) ->
  no_ties phi n x w gw list_heap abstol reltol (2 * n + 2) (2 * n + 2) (initial_state n h).
Proof.
  intros Hn HR E. cbn [initial_heap] in E. tinv E. unfold tret in T0. assert (h = [a0]) as -> by (unfold list_heap in T0; cbn in T0; congruence). clear T0.
  assert (F : (2 * n + 2 = S (2 * n + 1))%nat) by lia. rewrite F at 2. cbn [no_ties]. intros _. split.
  - exists a0, []. split; [reflexivity|intros ? []].
  - intros l2 st1 E1. assert (EV : gk_evals st1 = ((2 * n + 1) * 1 + (4 * n + 2))%nat).
    { unfold refine in E1. cbn [list_heap heappop heappush pop_min initial_state gk_heap gk_int gk_err gk_evals] in E1. tinv E1. tinv T1. unfold tret in T3. assert (ES := f_equal snd T3). cbn [snd] in ES. injection ES as <-. cbn [gk_evals length]. lia. }
    destruct (2 * n + 1)%nat eqn:E2; [lia|]. cbn [no_ties]. intros GO. exfalso. unfold go_on in GO. apply andb_prop in GO. destruct GO as [_ GO]. apply Nat.ltb_lt in GO. lia.
Qed.

Print Assumptions C43_both_map.
Print Assumptions C43_pos_map.
Print Assumptions C43_neg_map.
Print Assumptions C43_both_integrand.
Print Assumptions C43_pos_integrand.
Print Assumptions C43_neg_integrand.
Print Assumptions C43_both_panel.
Print Assumptions C43_pos_panel.
Print Assumptions C43_neg_panel.
Print Assumptions C43_both_improper.
Print Assumptions C43_pos_improper.
Print Assumptions C43_neg_improper.
Print Assumptions C43_both_run.
Print Assumptions C43_pos_run.
Print Assumptions C43_neg_run.
Print Assumptions C43_reverse_panel.
Print Assumptions C43_reverse.
Print Assumptions C43_wrong_end.
Print Assumptions C43_weights_positive.
Print Assumptions C43_wrong_half_line_refuted.
