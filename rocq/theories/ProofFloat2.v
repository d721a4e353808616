(** * Equispaced nodes in double precision: unisolvence *)
From Coquelicot Require Import Coquelicot.
From Coq Require Import List Arith Bool ZArith Reals Lra Lia.
From Verif Require Import Py PyToolsModel RSum RField ModelLinAlg ProofLinAlg ModelNd ModelShapes ModelSpaces ModelNodes ModelModes ModelBasis ModelQuad
  ModelMatrices EnumFacts SpecIndex SpecGeometry SpecIntegral SpecPoly SpecPartial SpecSpan ProofNodeTuples ProofTPCall ProofTPNodes ProofMonomial ProofBasisDeriv
  ProofPKDO ProofTPOrtho ProofSpaces ProofBasisIndex ProofEquispaced ProofQuad ProofMatrices ProofMatrices2 ProofDiffPerm ProofMatrices3 ProofExchange ProofUnisolvent
  PropsBasis PropsMatrices PropsUnisolvent ProofSpaceNodes ModelFloat ProofFloat.
Import ListNotations.
Local Open Scope R_scope.

Lemma tensor_space_nodes c ss xss : Forall2 space_nodes ss xss -> space_nodes (TPSpace c ss) (tp_tuples xss).
Proof.
  intros HF. split; [|split].
  - rewrite tp_tuples_length. cbn [space_dim]. unfold prod_nat. f_equal. induction HF as [|s xs ss xss (H1 & _) HF IH]; [reflexivity|]. cbn [map]. now rewrite H1, IH.
  - intros x Hx. apply tp_tuples_in in Hx. destruct Hx as (parts & Hp & ->). cbn [spatial_dim]. revert parts Hp.
    induction HF as [|s xs ss xss (_ & H1 & _) HF IH]; intros parts Hp; inversion Hp as [|y ? ps ? P1 P2]; subst; [reflexivity|]. cbn [concat map]. rewrite app_length.
    change (sum_nat (spatial_dim s :: map spatial_dim ss)) with (spatial_dim s + sum_nat (map spatial_dim ss))%nat. rewrite H1 by easy. f_equal. exact (IH ps P2).
  - intros f Hf Hz x Hx. apply in_space_tp in Hf. cbn [spatial_dim] in Hx. revert f Hf Hz x Hx.
    induction HF as [|s xs ss xss (_ & Hd & H1) HF IHF]; intros f Hf Hz x Hx.
    + destruct x; [|discriminate]. apply Hz. apply tp_tuples_in. exists []. split; [constructor|reflexivity].
    + change (sum_nat (map spatial_dim (s :: ss))) with (spatial_dim s + sum_nat (map spatial_dim ss))%nat in Hx.
      rewrite <- (firstn_skipn (spatial_dim s) x).
      assert (L1 : length (firstn (spatial_dim s) x) = spatial_dim s) by (rewrite firstn_length; lia).
      assert (L2 : length (skipn (spatial_dim s) x) = sum_nat (map spatial_dim ss)) by (rewrite skipn_length; lia).
      apply (H1 (fun u => f (u ++ skipn (spatial_dim s) x))); [now apply (in_spaces_left s ss)| |easy].
      intros u Hu. apply (IHF (fun y => f (u ++ y))); [apply (in_spaces_right s ss); auto| |easy].
      intros y Hy. apply tp_tuples_in in Hy. destruct Hy as (parts & Hp & ->). apply Hz. apply tp_tuples_in. exists (u :: parts).
      split; [now constructor|reflexivity].
Qed.

Lemma selects_rel {A} (Q : A -> A -> Prop) xss yss idx p : Forall2 (Forall2 Q) xss yss -> selects xss idx p -> exists q, selects yss idx q /\ Forall2 Q p q.
Proof.
  intros HF H. revert yss HF. induction H as [|l lists i digits a parts H1 H2 IH]; intros yss HF; inversion HF as [|? m ? mss F1 F2]; subst.
  - exists []. split; constructor.
  - destruct (IH mss F2) as (q & Q1 & Q2). assert (exists b, nth_error m i = Some b /\ Q a b) as (b & B1 & B2).
    { clear -F1 H1. revert i H1. induction F1 as [|x y l m Hxy F1 IH]; intros [|i] H1; cbn in *; try discriminate; [|now apply IH]. exists y. split; [easy|]. congruence. }
    exists (b :: q). split; now constructor.
Qed.
Lemma concat_rel {A} (Q : A -> A -> Prop) p q : Forall2 (Forall2 Q) p q -> Forall2 Q (concat p) (concat q).
Proof. induction 1; cbn [concat]; [constructor|]. now apply Forall2_app. Qed.
Lemma tp_tuples_rel {A} (Q : A -> A -> Prop) xss yss : Forall2 (Forall2 (Forall2 Q)) xss yss -> Forall2 (Forall2 Q) (tp_tuples xss) (tp_tuples yss).
Proof.
  intros HF. unfold tp_tuples. assert (E : map (@length _) yss = map (@length _) xss).
  { induction HF as [|xs ys xss yss H HF IH]; [reflexivity|]. cbn [map]. rewrite IH. f_equal. clear -H. induction H; cbn [length]; congruence. }
  rewrite E. assert (G : forall l, (forall idx, In idx l -> valid_idx idx (map (@length _) xss)) ->
    Forall2 (Forall2 Q) (map (fun idx => concat (match zipM (fun ts j => getitem ts j) xss idx with Ok p => p | Err _ => [] end)) l)
      (map (fun idx => concat (match zipM (fun ts j => getitem ts j) yss idx with Ok p => p | Err _ => [] end)) l)).
  { induction l as [|idx l IH]; intros H; cbn [map]; constructor; [|apply IH; intros; apply H; now right].
    destruct (selects_exists _ _ (H idx (or_introl eq_refl))) as (p & Hp). destruct (selects_rel (Forall2 Q) _ _ _ _ HF Hp) as (q & Hq & HR).
    rewrite (selects_parts _ _ _ Hp), (selects_parts _ _ _ Hq). now apply concat_rel. }
  apply G. intros idx Hi. now apply enumF_in in Hi.
Qed.

Definition within (e : R) : list R -> list R -> Prop := Forall2 (fun a b => Rabs (a - b) <= e).
(** What the nodes of a space in double precision satisfy; [q] are the exact nodes. *)
Definition nodes64_ok (s : fspace) (p q : points) : Prop :=
  space_nodes s (pts_cols p) /\ wf_pts p /\ NoDup (pts_cols p)
  /\ Forall2 (within (3 * u64)) (pts_cols p) (pts_cols q) /\ Forall (Forall (fun c => -1 <= c <= 1)) (pts_cols p).
(** Orders up to 2^51. *)
Inductive orders64 : fspace -> Prop :=
| o64_pn d n : (Z.of_nat n <= 2 ^ 51)%Z -> orders64 (PN d n)
| o64_tp c ss : Forall orders64 ss -> orders64 (TPSpace c ss).

Lemma node64_inj n : (0 < n)%nat -> (Z.of_nat n <= 2 ^ 51)%Z -> forall i j, (i <= n)%nat -> (j <= n)%nat -> node64 n i = node64 n j -> i = j.
Proof.
  intros Hn HN i j Hi Hj E. destruct (Nat.lt_trichotomy i j) as [H|[H|H]]; [|easy|].
  - pose proof (node64_lt n Hn i j HN ltac:(lia)). lra.
  - pose proof (node64_lt n Hn j i HN ltac:(lia)). lra.
Qed.
Lemma map_inj_upto (g : nat -> R) n : (forall i j, (i <= n)%nat -> (j <= n)%nat -> g i = g j -> i = j) ->
  forall s t, (total s <= n)%nat -> (total t <= n)%nat -> map g s = map g t -> s = t.
Proof.
  intros Hg. induction s as [|a s IH]; intros [|b t] Hs Ht E; try discriminate; [reflexivity|]. cbn [map] in E. injection E as E1 E2.
  unfold total in *. cbn [fold_right] in *. f_equal; [apply Hg; auto; lia|apply IH; auto; lia].
Qed.
Lemma total_in t k : In k t -> (k <= total t)%nat.
Proof. induction t as [|a t IH]; [intros []|]. unfold total in *. cbn [fold_right]. intros [->|H]; [lia|]. specialize (IH H). lia. Qed.

Lemma mean_coord d : (1 <= d)%nat -> Rabs (2 / (INR d + 1) - 1) <= 1.
Proof.
  intros H. assert (1 <= INR d) by (now apply (le_INR 1)). assert (0 < 2 / (INR d + 1) <= 1).
  { split; [apply Rmult_lt_0_compat; [lra|apply Rinv_0_lt_compat; lra]|]. apply Rmult_le_reg_r with (INR d + 1); [lra|]. unfold Rdiv. rewrite Rmult_assoc, Rinv_l by lra. lra. }
  apply Rabs_le. lra.
Qed.
Lemma one_range x : Rabs x <= 1 -> -1 <= rnd64 x <= 1.
Proof.
  intros H. apply Rabs_le_between in H. destruct H as [A B]. apply rnd_mono in A. apply rnd_mono in B.
  rewrite (rnd_id (- (1))) in A by (apply (fmt_Z (-1)), Z.leb_le, eq_refl). rewrite (rnd_id 1) in B by (apply (fmt_Z 1), Z.leb_le, eq_refl). lra.
Qed.
Lemma pn64 d n : (Z.of_nat n <= 2 ^ 51)%Z -> exists p q, equispaced_nodes_for_space64 (PN d n) (Simplex d) = Ok p /\ equispaced_nodes_for_space (PN d n) (Simplex d) = Ok q
  /\ pts_dim p = d /\ nodes64_ok (PN d n) p q.
Proof.
  intros HN. rewrite equispaced_pn_eq. cbn [equispaced_nodes_for_space64 node_tuples_for_space bind]. rewrite Nat.eqb_refl. cbn [negb]. pose proof u64_small as U.
  destruct (Nat.eqb_spec n 0) as [->|Hn].
  - eexists _, _. split; [reflexivity|]. split; [reflexivity|]. split; [reflexivity|]. unfold nodes64_ok, wf_pts. cbn [pts_cols pts_dim]. rewrite mean_simplex. set (c := 2 / (INR d + 1) - 1). cbn [map].
    assert (EM : map rnd64 (repeat c d) = repeat (rnd64 c) d) by (clearbody c; clear; induction d as [|k IHk]; [reflexivity|]; cbn [repeat map]; f_equal; exact IHk). rewrite EM.
    assert (EC : [repeat (rnd64 c) d] = map (map (fun _ => rnd64 c)) (gnitsam 0 d)).
    { rewrite gnitsam_zero. cbn [map]. f_equal. generalize (rnd64 c). clear. intros c. induction d as [|k IHk]; [reflexivity|]; cbn [repeat map]; f_equal; exact IHk. }
    split; [|split; [|split; [|split]]].
    + split; [|split].
      * rewrite EC, map_length. apply gnitsam_length.
      * intros x [<-|[]]. apply repeat_length.
      * intros f Hf Hz. apply in_space_pn in Hf. refine (lattice_poly_unisolvent (fun _ => rnd64 c) d 0 _ f Hf _); [intros i j Hi Hj _; lia|]. intros x Hx. apply Hz. now rewrite EC.
    + constructor; [|constructor]. cbn [mean_column pts_dim unit_vertices_for_simplex]. apply repeat_length.
    + constructor; [intros []|constructor].
    + constructor; [|constructor]. unfold within. destruct d as [|d]; [constructor|]. pose proof (mean_coord (S d) ltac:(lia)) as MC. fold c in MC. pose proof (rnd_err c MC). clearbody c. generalize (S d). clear -H U. intros k.
      induction k; cbn [repeat]; constructor; [lra|easy].
    + constructor; [|constructor]. destruct d as [|d]; [constructor|]. pose proof (mean_coord (S d) ltac:(lia)) as MC. fold c in MC. apply one_range in MC. revert MC. generalize (rnd64 c). generalize (S d). clear. intros k r MC.
      induction k; cbn [repeat]; constructor; easy.
  - eexists _, _. split; [reflexivity|]. split; [reflexivity|]. split; [reflexivity|]. unfold nodes64_ok, wf_pts, scale_tuples64, scale_tuples. cbn [pts_cols pts_dim].
    pose proof (node64_inj n ltac:(lia) HN) as INJ. split; [|split; [|split; [|split]]].
    + split; [|split].
      * rewrite map_length. apply gnitsam_length.
      * intros x Hx. apply in_map_iff in Hx. destruct Hx as (t & <- & Ht). apply gnitsam_in in Ht. rewrite map_length. now destruct Ht.
      * intros f Hf Hz. apply in_space_pn in Hf. exact (lattice_poly_unisolvent (node64 n) d n INJ f Hf Hz).
    + apply Forall_forall. intros x Hx. apply in_map_iff in Hx. destruct Hx as (t & <- & Ht). apply gnitsam_in in Ht. rewrite map_length. now destruct Ht.
    + pose proof (gnitsam_NoDup d n) as ND. assert (HT : forall t, In t (gnitsam n d) -> (total t <= n)%nat) by (intros t Ht; now apply gnitsam_in in Ht).
      induction ND as [|t l Hni ND IH]; cbn [map]; constructor; [|apply IH; intros; apply HT; now right].
      intros Hin. apply in_map_iff in Hin. destruct Hin as (t' & E & Ht'). apply Hni. replace t with t'; [easy|]. apply (map_inj_upto (node64 n) n INJ); auto; apply HT; [now right|now left].
    + assert (HT : forall t, In t (gnitsam n d) -> (total t <= n)%nat) by (intros t Ht; now apply gnitsam_in in Ht). induction (gnitsam n d) as [|t l IH]; cbn [map]; constructor; [|apply IH; intros; apply HT; now right].
      specialize (HT t (or_introl eq_refl)). assert (HK : forall k, In k t -> (k <= n)%nat) by (intros k Hk; apply total_in in Hk; lia). clear -HK Hn. unfold within.
      induction t as [|k t IH]; cbn [map]; constructor; [apply node64_err; [lia|apply HK; now left]|apply IH; intros; apply HK; now right].
    + apply Forall_forall. intros x Hx. apply in_map_iff in Hx. destruct Hx as (t & <- & Ht). apply gnitsam_in in Ht. destruct Ht as [_ Ht]. apply Forall_forall. intros z Hz. apply in_map_iff in Hz. destruct Hz as (k & <- & Hk).
      apply node64_range; [lia|]. apply total_in in Hk. change (sum_nat t) with (total t) in Ht. lia.
Qed.
Lemma equi64 s : forall sh, fits s sh -> orders64 s -> exists p q, equispaced_nodes_for_space64 s sh = Ok p /\ equispaced_nodes_for_space s sh = Ok q
  /\ pts_dim p = spatial_dim s /\ nodes64_ok s p q.
Proof.
  induction s as [d n|c ss IH] using fspace_ind'; intros sh HF HO; inversion HF as [|? ? ? shs HFs]; subst; inversion HO as [? ? HN|? ? HOs]; subst.
  - now apply pn64.
  - pose proof (fits_dim _ _ HF) as Hd.
    assert (exists ps qs, zipM (fun b s => equispaced_nodes_for_space64 b s) ss shs = Ok ps /\ zipM (fun b s => equispaced_nodes_for_space b s) ss shs = Ok qs
       /\ map pts_dim ps = map spatial_dim ss /\ Forall2 space_nodes ss (map pts_cols ps) /\ Forall wf_pts ps /\ Forall (fun p => NoDup (pts_cols p)) ps
       /\ Forall (fun p => (0 < length (pts_cols p))%nat) ps
       /\ Forall wf_pts qs /\ Forall (fun p => NoDup (pts_cols p)) qs /\ Forall (fun p => (0 < length (pts_cols p))%nat) qs
       /\ Forall2 (Forall2 (within (3 * u64))) (map pts_cols ps) (map pts_cols qs)
       /\ Forall (fun p => Forall (Forall (fun c => -1 <= c <= 1)) (pts_cols p)) ps)
      as (ps & qs & Ep & Eq & D & N & W & ND & LP & W' & ND' & LP' & CL & RG).
    { clear HF HO Hd. induction HFs as [|s sh ss shs H1 HFs IHF].
      { exists [], []. repeat split; constructor. }
      inversion IH as [|? ? I1 I2]; subst. inversion HOs as [|? ? O1 O2]; subst.
      destruct (IHF I2 O2) as (ps & qs & Ep & Eq & D & N & W & ND & LP & W' & ND' & LP' & CL & RG).
      destruct (I1 sh H1 O1) as (p & q & E1 & E2 & D1 & (N1 & W1 & ND1 & C1 & R1)).
      destruct (equi_all s sh H1) as (q' & Eq' & _ & W2 & LQ & _ & ND2 & _). assert (q' = q) by congruence. subst q'.
      assert (LE : length (pts_cols q) = length (pts_cols p)) by (symmetry; eapply EnumFacts.Forall2_length; exact C1).
      assert (PS : (0 < length (pts_cols p))%nat) by (destruct N1 as (L1 & _); pose proof (space_dim_pos s); unfold lt in *; rewrite L1; easy).
      exists (p :: ps), (q :: qs). cbn [zipM map]. rewrite E1. cbn [bind]. rewrite Ep. cbn [bind]. rewrite E2. cbn [bind]. rewrite Eq. cbn [bind].
      split; [reflexivity|]. split; [reflexivity|]. split; [now rewrite D1, D|]. repeat (split; [constructor; auto|]); [unfold lt in *; rewrite LE; easy|constructor; auto]. }
    destruct (tensor_product_pts_cols ps W ND LP) as (p & Epp & Dp & Cp & Wp).
    destruct (tensor_product_pts_cols qs W' ND' LP') as (q & Eqq & Dq & Cq & Wq).
    exists p, q. split; [|split; [|split]].
    + cbn [equispaced_nodes_for_space64]. rewrite Hd. cbn [shape_dim]. rewrite Nat.eqb_refl. cbn [negb]. rewrite Ep. exact Epp.
    + cbn [equispaced_nodes_for_space]. rewrite Hd. cbn [shape_dim]. rewrite Nat.eqb_refl. cbn [negb]. rewrite Eq. exact Eqq.
    + cbn [spatial_dim]. now rewrite Dp, D.
    + split; [rewrite Cp; now apply tensor_space_nodes|]. split; [exact Wp|]. split; [|split].
      * rewrite Cp. apply (tp_tuples_NoDup _ (map pts_dim ps)).
        -- apply Forall_map. exact ND.
        -- clear -W. induction W; cbn [map]; constructor; auto.
      * rewrite Cp, Cq. now apply tp_tuples_rel.
      * rewrite Cp. apply Forall_forall. intros x Hx. apply tp_tuples_in in Hx. destruct Hx as (parts & HP & ->). clear -HP RG. revert parts HP.
        induction RG as [|p ps H RG IH]; intros parts HP; inversion HP as [|y ? ys ? P1 P2]; subst; [constructor|]. cbn [concat]. apply Forall_app. split; [|now apply IH].
        rewrite Forall_forall in H. now apply H.
Qed.
