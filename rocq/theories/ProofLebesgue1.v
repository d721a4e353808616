(** * Functions of the spaces of order one: values lie between those at the vertices *)
From Coquelicot Require Import Coquelicot.
From Coq Require Import List Arith Bool ZArith Reals Lra Lia.
From Verif Require Import Py PyToolsModel RSum ModelNd ModelShapes ModelSpaces ModelNodes ModelQuad EnumFacts SpecIndex SpecGeometry SpecIntegral SpecPoly ProofNodeTuples ProofTPNodes ProofShapes ProofUnisolvent.
Import ListNotations.
Local Open Scope R_scope.

Lemma mono_total0 e : total e = 0%nat -> forall x, monoval e x = 1.
Proof.
  unfold total. induction e as [|a e IH]; intros H [|t x]; try reflexivity. cbn [fold_right] in H. cbn [monoval]. rewrite IH by lia. assert (a = 0%nat) as -> by lia. cbn. ring.
Qed.
Lemma mono_le1 e : (total e <= 1)%nat -> (forall x, length x = length e -> monoval e x = 1)
  \/ exists k, (k < length e)%nat /\ forall x, length x = length e -> monoval e x = nth k x 0.
Proof.
  unfold total. induction e as [|a e IH]; intros H; [left; intros [|]; reflexivity|]. cbn [fold_right] in H. destruct a as [|a].
  - destruct (IH ltac:(lia)) as [A|(k & Hk & A)]; [left|right; exists (S k); split; [cbn; lia|]]; intros [|t x] Hx; try discriminate; cbn [length] in Hx; cbn [monoval nth pow]; rewrite A by lia; ring.
  - right. exists 0%nat. split; [cbn; lia|]. intros [|t x] Hx; [discriminate|]. cbn [monoval nth]. rewrite mono_total0 by (unfold total; lia). assert (a = 0%nat) as -> by lia. cbn. ring.
Qed.

Definition vert (d i : nat) : list R := map (fun j => if (i =? j + 1)%nat then 1 else -1) (seq 0 d).
Definition bary (x : list R) (i : nat) : R := nth i (barycentric x) 0.
Lemma vert_length d i : length (vert d i) = d.
Proof. unfold vert. now rewrite map_length, seq_length. Qed.
Lemma vert_nth d i k : (k < d)%nat -> nth k (vert d i) 0 = 2 * (if (i =? k + 1)%nat then 1 else 0) - 1.
Proof.
  intros Hk. unfold vert. rewrite (nth_indep _ 0 ((fun j => if (i =? j + 1)%nat then 1 else -1) 0%nat)) by (now rewrite map_length, seq_length).
  rewrite (map_nth (fun j => if (i =? j + 1)%nat then 1 else -1)), seq_nth by easy. cbn [Nat.add]. destruct (i =? k + 1)%nat; ring.
Qed.
Lemma vert_in d i : (i <= d)%nat -> In (vert d i) (pts_cols (unit_vertices_for_simplex d)).
Proof. intros Hi. cbn [unit_vertices_for_simplex pts_cols]. apply in_map_iff. exists i. split; [reflexivity|]. apply in_seq. lia. Qed.
Lemma list_sum_rsum l : list_sum l = rsum (fun k => nth k l 0) (length l).
Proof. unfold list_sum. induction l as [|a l IH]; [reflexivity|]. cbn [length fold_right]. rewrite rsum_shift, IH. reflexivity. Qed.
Lemma bary_sum x : rsum (bary x) (S (length x)) = 1.
Proof. rewrite rsum_shift. unfold bary, barycentric. cbn [nth]. rewrite list_sum_rsum, map_length. ring. Qed.
Lemma bary_S x k : (k < length x)%nat -> bary x (S k) = (nth k x 0 + 1) / 2.
Proof.
  intros Hk. unfold bary, barycentric. cbn [nth]. rewrite (nth_indep _ 0 ((fun c => (c + 1) / 2) 0)) by (now rewrite map_length). apply (map_nth (fun c => (c + 1) / 2)).
Qed.
Lemma list_sum_half x : list_sum (map (fun c => (c + 1) / 2) x) = (list_sum x + INR (length x)) / 2.
Proof. unfold list_sum. induction x as [|a x IH]; [cbn; lra|]. cbn [map fold_right]. rewrite IH. cbn [length]. rewrite S_INR. lra. Qed.
Lemma bary_nonneg d x i : in_simplex d x -> (i <= d)%nat -> 0 <= bary x i.
Proof.
  intros (L & F & S) Hi. destruct i as [|i].
  - unfold bary, barycentric. cbn [nth]. rewrite list_sum_half, L. lra.
  - rewrite bary_S by lia. rewrite Forall_forall in F. specialize (F (nth i x 0) ltac:(apply nth_In; lia)). lra.
Qed.
(** barycentric interpolation of a monomial of degree one *)
Lemma mono_bary d e x : length e = d -> (total e <= 1)%nat -> length x = d -> monoval e x = rsum (fun i => bary x i * monoval e (vert d i)) (S d).
Proof.
  intros He Ht Hx. destruct (mono_le1 e Ht) as [A|(k & Hk & A)].
  - rewrite A by lia. rewrite (rsum_ext _ (bary x)) by (intros i _; rewrite A by (rewrite vert_length; lia); ring). rewrite <- Hx. symmetry. apply bary_sum.
  - rewrite A by lia. rewrite (rsum_ext _ (fun i => 2 * (bary x i * (if (i =? k + 1)%nat then 1 else 0)) - bary x i)).
    2:{ intros i _. rewrite A by (rewrite vert_length; lia). rewrite vert_nth by lia. ring. }
    rewrite rsum_minus, rsum_scal. rewrite <- Hx at 2. rewrite bary_sum.
    rewrite (rsum_single _ _ (k + 1)%nat) by (first [lia|intros j _ Hj; destruct (Nat.eqb_spec j (k + 1)); [lia|ring]]).
    rewrite Nat.eqb_refl, Nat.add_1_r, bary_S by lia. field.
Qed.
Lemma polyval_app ts d p q : length p = d ->
  Forall (fun t : R * list nat => exists e1 e2, snd t = e1 ++ e2 /\ length e1 = d /\ (total e1 <= 1)%nat) ts ->
  polyval ts (p ++ q) = rsum (fun i => bary p i * polyval ts (vert d i ++ q)) (S d).
Proof.
  intros Hp. induction 1 as [|t ts (e1 & e2 & E & L & T) HF IH]; [unfold polyval; cbn [fold_right]; rewrite rsum_0; [reflexivity|intros; ring]|].
  unfold polyval in *. cbn [fold_right]. rewrite IH, E. rewrite (rsum_ext (fun i => bary p i * (fst t * monoval (e1 ++ e2) (vert d i ++ q) + _)) (fun i => (fst t * monoval e2 q) * (bary p i * monoval e1 (vert d i)) + bary p i * fold_right (fun t acc => fst t * monoval (snd t) (vert d i ++ q) + acc) 0 ts)).
  - rewrite rsum_plus, rsum_scal, <- (mono_bary d e1 p L T Hp). rewrite ProofUnisolvent.monoval_app by lia. ring.
  - intros i _. rewrite ProofUnisolvent.monoval_app by (rewrite vert_length; lia). ring.
Qed.
Lemma convex_between d x g m M : in_simplex d x -> (forall i, (i <= d)%nat -> m <= g i <= M) -> m <= rsum (fun i => bary x i * g i) (S d) <= M.
Proof.
  intros Hx Hg. assert (S1 : rsum (bary x) (S d) = 1) by (destruct Hx as (<- & _); apply bary_sum).
  replace m with (rsum (fun i => bary x i * m) (S d)) by (rewrite rsum_scal_r, S1; ring). replace M with (rsum (fun i => bary x i * M) (S d)) by (rewrite rsum_scal_r, S1; ring).
  split; apply rsum_le; intros i Hi; (apply Rmult_le_compat_l; [apply (bary_nonneg d); [easy|lia]|apply Hg; lia]).
Qed.
Lemma between_poly ds : forall ts m M, Forall (fun t : R * list nat => exists es, Forall2 space_exp (map (fun d => PN d 1) ds) es /\ snd t = concat es) ts ->
  (forall vs, Forall2 (fun v d => exists i, (i <= d)%nat /\ v = vert d i) vs ds -> m <= polyval ts (concat vs) <= M) ->
  forall x, in_shapes (map Simplex ds) x -> m <= polyval ts x <= M.
Proof.
  induction ds as [|d ds IH]; intros ts m M HT HV x Hx; cbn [map in_shapes] in Hx.
  - subst x. apply (HV []). constructor.
  - destruct Hx as (p & q & -> & Hp & Hq). cbn [in_shape] in Hp. pose proof Hp as (Lp & _). rewrite (polyval_app ts d p q Lp).
    2:{ eapply Forall_impl; [|exact HT]. intros t (es & H2 & E). cbn [map] in H2. inversion H2 as [|? e ? es' He Hes]; subst. inversion He; subst. exists e, (concat es'). rewrite E. auto. }
    apply convex_between; [easy|]. intros i Hi.
    set (ts' := map (fun t : R * list nat => (fst t * monoval (firstn d (snd t)) (vert d i), skipn d (snd t))) ts).
    assert (E : forall z, polyval ts (vert d i ++ z) = polyval ts' z).
    { intros z. unfold ts'. clear -HT. induction HT as [|t ts (es & H2 & E) HF IH']; [reflexivity|]. unfold polyval in *. cbn [map fold_right fst snd]. rewrite IH'. f_equal.
      cbn [map] in H2. inversion H2 as [|? e ? es' He Hes]; subst. inversion He as [? ? ? Le Te|]; subst. rewrite E. cbn [concat]. rewrite firstn_app, firstn_all, Nat.sub_diag, firstn_O, app_nil_r, skipn_app, skipn_all, Nat.sub_diag. cbn [skipn app].
      rewrite ProofUnisolvent.monoval_app by (now rewrite vert_length). ring. }
    rewrite E. apply (IH ts'); [| |exact Hq].
    + apply Forall_map. eapply Forall_impl; [|exact HT]. intros t (es & H2 & Et). cbn [map] in H2. inversion H2 as [|? e ? es' He Hes]; subst. inversion He as [? ? ? Le Te|]; subst. exists es'. split; [easy|].
      cbn [snd]. rewrite Et. cbn [concat]. rewrite skipn_app, skipn_all2 by lia. match goal with |- _ ++ skipn ?n _ = _ => replace n with 0%nat by lia end. reflexivity.
    + intros vs Hvs. rewrite <- E. apply (HV (vert d i :: vs)). constructor; [now exists i|easy].
Qed.
Lemma product_vertices ds vs : Forall (fun d => (1 <= d)%nat) ds -> Forall2 (fun v d => exists i, (i <= d)%nat /\ v = vert d i) vs ds ->
  exists p, tensor_product_pts (map unit_vertices_for_simplex ds) = Ok p /\ In (concat vs) (pts_cols p).
Proof.
  intros HD HV. destruct (tensor_product_pts_ok (map unit_vertices_for_simplex ds)) as (p & E & _ & C1 & C0 & _).
  { apply Forall_map. apply Forall_forall. intros d _. unfold wf_pts. cbn [unit_vertices_for_simplex pts_cols pts_dim]. apply Forall_map. apply Forall_forall. intros i _. now rewrite map_length, seq_length. }
  exists p. split; [exact E|]. destruct ds as [|d0 ds0].
  - inversion HV; subst. rewrite (C0 eq_refl). now left.
  - rewrite C1 by (inversion HD; subst; unfold sum_nat; cbn [map fold_right pts_dim unit_vertices_for_simplex]; lia). apply tp_tuples_in. exists vs. split; [|easy].
    clear -HV. set (ds := d0 :: ds0) in *. clearbody ds. induction HV as [|v d vs ds (i & Hi & ->) H IH]; cbn [map]; constructor; [now apply vert_in|exact IH].
Qed.
