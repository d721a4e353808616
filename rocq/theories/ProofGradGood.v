(** * Gradients of the bases at every point where the collapsed coordinates are consistent, vertices included *)
From Coquelicot Require Import Coquelicot.
From Coq Require Import List Arith Bool ZArith Reals Lra Lia.
From Verif Require Import Py PyToolsModel RSum IntFacts RField ModelLinAlg ProofLinAlg ModelNd ModelShapes ModelSpaces ModelNodes ModelModes ModelBasis ModelQuad
  ModelMatrices EnumFacts SpecIndex SpecGeometry SpecIntegral SpecPoly SpecPartial SpecSpan ProofNodeTuples ProofTPCall ProofTPGrad ProofTPNodes ProofMonomial ProofBasisDeriv
  ProofJacobi ProofJacobi2 ProofPKDO ProofPKDOOrtho ProofTPOrtho ProofSpaces ProofBasisIndex ProofEquispaced ProofQuad ProofMatrices ProofMatrices2 ProofDiffPerm ProofMatrices3 ProofExchange ProofGM ProofUnisolvent
  PropsBasis PropsMatrices PropsUnisolvent ProofSpaceNodes.
Import ListNotations.
Local Open Scope R_scope.

Record gmode := GMode { gf : bfun (T:=R); gg : bgrad (T:=R); gp : list R -> R }.
Definition gm_o (m : gmode) : omode := (gf m, gp m).
Definition gmode_ok (n : nat) (reg : list R -> Prop) (m : gmode) : Prop :=
  forall x, length x = n -> reg x -> gf m x = Ok (gp m x) /\ exists c, gg m x = Ok c /\ has_partials (gp m) x c.
Definition gmodes_of (s : fspace) (b : basis) (ms : list gmode) : Prop :=
  functions Rops b = Ok (map gf ms) /\ gradients Rops b = Ok (map gg ms) /\ length ms = space_dim s
  /\ Forall (fun m => in_space s (gp m)) ms /\ Forall (gmode_ok (spatial_dim s) (good_point b)) ms.

Lemma gmodes_modes s b ms : gmodes_of s b ms -> modes_of s b (map gm_o ms).
Proof.
  intros (F & _ & L & P & H). split; [rewrite map_map; exact F|]. split; [now rewrite map_length|].
  rewrite Forall_forall in *. intros m Hm. apply in_map_iff in Hm. destruct Hm as (m' & <- & Hm). split; [now apply P|]. intros x Hx Hg. now apply (H m' Hm).
Qed.

Lemma gmodes_onb d n : (1 <= d <= 3)%nat -> exists ms, gmodes_of (PN d n) (SimplexONB d n) ms.
Proof.
  intros Hd.
  set (F := match d with 1%nat => pkdo_1d Rops | 2%nat => pkdo_2d_fn Rops | _ => pkdo_3d_fn Rops end).
  set (G := match d with 1%nat => grad_pkdo_1d Rops | 2%nat => grad_pkdo_2d_fn Rops | _ => grad_pkdo_3d_fn Rops end).
  set (P := fun (id : list nat) (x : list R) =>
     match d with
     | 1%nat => jp 0 0 (nth 0 id 0%nat) (nth 0 x 0)
     | 2%nat => phi2 (nth 0 id 0%nat) (nth 1 id 0%nat) (nth 0 x 0) (nth 1 x 0)
     | _ => phi3 (nth 0 id 0%nat) (nth 1 id 0%nat) (nth 2 id 0%nat) (nth 0 x 0) (nth 1 x 0) (nth 2 x 0)
     end).
  exists (map (fun id => GMode (F id) (G id) (P id)) (simplex_mode_tuples d n)).
  split; [|split; [|split; [|split]]].
  - rewrite map_map. destruct d as [|[|[|[|d]]]]; try lia; reflexivity.
  - rewrite map_map. destruct d as [|[|[|[|d]]]]; try lia; reflexivity.
  - rewrite map_length. unfold simplex_mode_tuples. rewrite gnitsam_length. reflexivity.
  - apply Forall_map_in. intros id Hid. cbn [gp]. apply in_space_pn. apply gnitsam_in in Hid. destruct Hid as [Hl Hs]. unfold P. clear F G P.
    destruct d as [|[|[|[|d]]]]; try lia.
    * apply nlen1 in Hl. destruct Hl as (i & ->). cbn [nth] in *. cbn in Hs. apply (is_poly_weaken 1 i); [lia|].
      apply (jp_poly 1 0 0 i (fun x => nth 0 x 0)). apply is_poly_coord. lia.
    * apply nlen2 in Hl. destruct Hl as (i & j & ->). cbn [nth] in *. cbn in Hs. apply (is_poly_weaken 2 (i + j)); [lia|]. apply phi2_poly.
    * apply nlen3 in Hl. destruct Hl as (i & j & k & ->). cbn [nth] in *. cbn in Hs. apply (is_poly_weaken 3 (i + j + k)); [lia|]. apply phi3_poly.
  - apply Forall_map_in. intros id Hid. apply gnitsam_in in Hid. destruct Hid as [Hl _]. intros x Hx Hg. cbn [gf gg gp spatial_dim] in *. unfold F, G, P. clear F G P.
    destruct d as [|[|[|[|d]]]]; try lia.
    + apply len1 in Hx. destruct Hx as (r & ->). apply nlen1 in Hl. destruct Hl as (i & ->). cbn [pkdo_1d grad_pkdo_1d nth].
      split; [now rewrite jac0|]. eexists. split; [reflexivity|]. split; [reflexivity|]. intros [|j] Hj; [|cbn in Hj; lia]. cbn [upd nth].
      eapply is_derive_ext; [intros t; apply jac0|]. apply grad_jacobi_correct; try apply par0; apply ex0.
    + apply len2 in Hx. destruct Hx as (r & s & ->). apply nlen2 in Hl. destruct Hl as (i & j & ->). cbn [pkdo_2d_fn grad_pkdo_2d_fn nth good_point] in *.
      split; [now rewrite pkdo_2d_phi|]. destruct (grad_pkdo_2d_phi i j r s Hg) as [H1 H2]. destruct (grad_pkdo_2d Rops i j r s) as [dr ds]. cbn [fst snd] in *.
      eexists. split; [reflexivity|]. split; [reflexivity|]. intros [|[|m]] Hm; [exact H1|exact H2|cbn in Hm; lia].
    + apply len3 in Hx. destruct Hx as (r & s & t & ->). apply nlen3 in Hl. destruct Hl as (i & j & k & ->). cbn [pkdo_3d_fn grad_pkdo_3d_fn nth good_point] in *.
      split; [now rewrite pkdo_3d_phi|]. assert (H := grad_pkdo_3d_phi i j k r s t Hg). destruct (grad_pkdo_3d Rops i j k r s t) as [[dr ds] dt]. destruct H as (H1 & H2 & H3).
      eexists. split; [reflexivity|]. split; [reflexivity|]. intros [|[|[|m]]] Hm; [exact H1|exact H2|exact H3|cbn in Hm; lia].
Qed.
Lemma gmodes_mono d n : exists ms, gmodes_of (PN d n) (SimplexMonomial d n) ms.
Proof.
  exists (map (fun e => GMode (monomial Rops e) (grad_monomial Rops e) (monoval e)) (simplex_mode_tuples d n)).
  split; [|split; [|split; [|split]]].
  - rewrite map_map. reflexivity.
  - rewrite map_map. reflexivity.
  - rewrite map_length. unfold simplex_mode_tuples. rewrite gnitsam_length. reflexivity.
  - apply Forall_map_in. intros e He. apply gnitsam_in in He. destruct He as [L T]. cbn [gp]. exists [(1, e)]. split; [repeat constructor; auto|].
    intros x _. unfold polyval. cbn [fold_right fst snd]. ring.
  - apply Forall_map_in. intros e He. apply gnitsam_in in He. destruct He as [L _]. intros x Hx _. cbn [gf gg gp spatial_dim] in *.
    split; [apply monomial_val; congruence|]. exists (map (fun j => dmono e j x) (seq 0 (length e))). split; [apply grad_monomial_val; congruence|].
    split; [rewrite map_length, seq_length; congruence|]. intros j Hj. rewrite nth_map_seq by lia. apply monoval_deriv; lia.
Qed.

(** ** Products *)
Lemma upd_split d x j t : (d <= length x)%nat -> (j < length x)%nat ->
  (firstn d (upd x j t) = if (j <? d)%nat then upd (firstn d x) j t else firstn d x)
  /\ (skipn d (upd x j t) = if (j <? d)%nat then skipn d x else upd (skipn d x) (j - d) t).
Proof.
  revert x j. induction d as [|d IH]; intros x j Hd Hj; [cbn; now rewrite Nat.sub_0_r|]. destruct x as [|a x]; [cbn in Hd; lia|]. cbn [length] in *.
  destruct j as [|j]; [split; reflexivity|]. destruct (IH x j ltac:(lia) ltac:(lia)) as [E1 E2].
  change (S j <? S d)%nat with (j <? d)%nat. change (S j - S d)%nat with (j - d)%nat. cbn [upd firstn skipn]. rewrite E1, E2. destruct (j <? d)%nat; split; reflexivity.
Qed.
Lemma nth_split d (x : list R) j : (d <= length x)%nat -> nth j x 0 = if (j <? d)%nat then nth j (firstn d x) 0 else nth (j - d) (skipn d x) 0.
Proof.
  intros H. rewrite <- (firstn_skipn d x) at 1. assert (Hf : length (firstn d x) = d) by (rewrite firstn_length; lia).
  destruct (Nat.ltb_spec j d); [now rewrite app_nth1 by lia|]. rewrite app_nth2 by lia. now rewrite Hf.
Qed.
Lemma partials_prod d f g x cf cg P : (d <= length x)%nat -> has_partials f (firstn d x) cf -> has_partials g (skipn d x) cg ->
  has_partials (fun y => P * (f (firstn d y) * g (skipn d y))) x (map (fun y => P * y * g (skipn d x)) cf ++ map (fun y => P * f (firstn d x) * y) cg).
Proof.
  intros Hd [L1 H1] [L2 H2]. assert (Hf : length (firstn d x) = d) by (rewrite firstn_length; lia). rewrite Hf in *. rewrite skipn_length in *.
  split; [rewrite app_length, !map_length; lia|]. intros j Hj.
  rewrite (nth_split d x j Hd).
  apply is_derive_ext with (fun t => P * (f (if (j <? d)%nat then upd (firstn d x) j t else firstn d x) * g (if (j <? d)%nat then skipn d x else upd (skipn d x) (j - d) t))).
  { intros t. destruct (upd_split d x j t Hd Hj) as [-> ->]. reflexivity. }
  destruct (Nat.ltb_spec j d) as [Hl|Hl].
  - rewrite app_nth1 by (rewrite map_length; lia). rewrite (nth_indep (map (fun y => P * y * g (skipn d x)) cf) 0 (P * 0 * g (skipn d x))) by (rewrite map_length; lia).
    rewrite (map_nth (fun y => P * y * g (skipn d x))). replace (P * nth j cf 0 * g (skipn d x)) with (P * (nth j cf 0 * g (skipn d x))) by ring.
    apply (is_derive_scal (fun t => f (upd (firstn d x) j t) * g (skipn d x))).
    eapply isD_eq; [apply isD_mult; [apply (H1 j Hl)|apply @is_derive_const]|]. change zero with 0. cbv beta. rewrite Rmult_0_r, Rplus_0_r. reflexivity.
  - rewrite app_nth2 by (rewrite map_length; lia). rewrite map_length, L1. rewrite (nth_indep (map (fun y => P * f (firstn d x) * y) cg) 0 (P * f (firstn d x) * 0)) by (rewrite map_length; lia).
    rewrite (map_nth (fun y => P * f (firstn d x) * y)). replace (P * f (firstn d x) * nth (j - d) cg 0) with (P * (f (firstn d x) * nth (j - d) cg 0)) by ring.
    apply (is_derive_scal (fun t => f (firstn d x) * g (upd (skipn d x) (j - d) t))). apply (is_derive_scal (fun t => g (upd (skipn d x) (j - d) t))). apply H2. lia.
Qed.
Lemma has_partials_ext f g x c : (forall y, length y = length x -> f y = g y) -> has_partials f x c -> has_partials g x c.
Proof.
  intros E [L H]. split; [easy|]. intros j Hj. eapply is_derive_ext; [|apply (H j Hj)]. intros t. apply E. now rewrite upd_length.
Qed.

Fixpoint tpg (ml : list gmode) (xs : list (list R)) : R :=
  match ml, xs with
  | m :: ml', x :: xs' => gp m x * tpg ml' xs'
  | _, _ => 1
  end.
Lemma tpg_phi ml xs : tpg ml xs = tpphi (map gm_o ml) xs.
Proof. revert xs. induction ml as [|m ml IH]; intros [|x xs]; cbn [tpg tpphi map]; try easy. now rewrite IH. Qed.

Lemma gradl_scal P Q vs cs : gradl (P * Q) vs cs = map (Rmult P) (gradl Q vs cs).
Proof.
  revert Q cs. induction vs as [|v vs IH]; intros Q [|c cs]; cbn [gradl]; try easy. rewrite map_app, map_map. f_equal.
  - apply map_ext. intros; ring.
  - now rewrite Rmult_assoc, IH.
Qed.

Lemma tpg_values bs ss mss idx ml x : Forall2 basis_of ss bs -> Forall2 (fun p ms => gmodes_of (fst p) (snd p) ms) (combine ss bs) mss ->
  selects mss idx ml -> length x = sum_nat (map spatial_dim ss) -> good_point_all bs x ->
  exists vs cs, grad_values (map spatial_dim ss) (map gf ml) (map gg ml) (blocks (map spatial_dim ss) x) vs cs
    /\ rprod vs = tpg ml (blocks (map spatial_dim ss) x)
    /\ has_partials (fun y => tpg ml (blocks (map spatial_dim ss) y)) x (gradl 1 vs cs).
Proof.
  intros HB. revert mss idx ml x. induction HB as [|s b ss bs Hb HB IH]; intros mss idx ml x HM Hs Hx Hg.
  - inversion HM; subst. inversion Hs; subst. exists [], []. split; [constructor|]. split; [reflexivity|]. cbn in Hx. destruct x; [|discriminate].
    split; [reflexivity|]. intros j Hj. cbn in Hj. lia.
  - cbn [combine] in HM. inversion HM as [|? ms ? mss' M1 M2]; subst. inversion Hs as [|? ? i r m ml' Hi Hs']; subst.
    cbn [map] in Hx. change (sum_nat (spatial_dim s :: map spatial_dim ss)) with (spatial_dim s + sum_nat (map spatial_dim ss))%nat in Hx.
    destruct Hg as [Hg1 Hg2]. rewrite (basis_of_dim s b Hb) in Hg1, Hg2.
    destruct (IH _ _ _ (skipn (spatial_dim s) x) M2 Hs') as (vs & cs & B & E & HD); [rewrite skipn_length; lia|easy|].
    destruct M1 as (_ & _ & _ & _ & MF). cbn [fst snd] in MF. rewrite Forall_forall in MF. apply nth_error_In in Hi.
    assert (Hf : length (firstn (spatial_dim s) x) = spatial_dim s) by (rewrite firstn_length; lia).
    destruct (MF m Hi _ Hf Hg1) as (V0 & c & G0 & HP). assert (Lc : length c = spatial_dim s) by (destruct HP as [L _]; now rewrite L).
    exists (gp m (firstn (spatial_dim s) x) :: vs), (c :: cs). cbn [map blocks tpg]. split; [|split].
    + constructor; auto.
    + unfold rprod in *. cbn [fold_right]. now rewrite E.
    + cbn [gradl]. assert (X := partials_prod (spatial_dim s) (gp m) (fun y => tpg ml' (blocks (map spatial_dim ss) y)) x c (gradl 1 vs cs) 1 ltac:(lia) HP HD).
      eapply has_partials_ext; [intros y _; apply Rmult_1_l|].
      replace (map (fun y => 1 * y * rprod vs) c ++ gradl (1 * gp m (firstn (spatial_dim s) x)) vs cs) with
        (map (fun y => 1 * y * tpg ml' (blocks (map spatial_dim ss) (skipn (spatial_dim s) x))) c ++ map (fun y => 1 * gp m (firstn (spatial_dim s) x) * y) (gradl 1 vs cs)); [exact X|].
      f_equal; [now rewrite E|]. rewrite <- (gradl_scal (1 * gp m (firstn (spatial_dim s) x)) 1). now rewrite Rmult_1_r.
Qed.

Lemma basis_gmodes s : forall b, basis_of s b -> exists ms, gmodes_of s b ms.
Proof.
  induction s as [d n|c ss IH] using fspace_ind'; intros b H; inversion H as [| |? ? bs HB]; subst.
  - apply gmodes_mono.
  - now apply gmodes_onb.
  - clear H. assert (exists mss, Forall2 (fun p ms => gmodes_of (fst p) (snd p) ms) (combine ss bs) mss) as (mss & HM).
    { clear -IH HB. induction HB as [|s b ss bs Hb HB IHB]; [exists []; constructor|]. inversion IH as [|? ? I1 I2]; subst.
      destruct (I1 b Hb) as (ms & Hm). destruct (IHB I2) as (mss & Hms). exists (ms :: mss). now constructor. }
    set (dims := map spatial_dim ss).
    exists (map (fun idx => GMode (tp_call Rops dims (map gf (sel_parts mss idx)))
                           (tp_grad_call Rops dims (ders_list (map gf (sel_parts mss idx)) (map gg (sel_parts mss idx))))
                           (fun x => tpg (sel_parts mss idx) (blocks dims x)))
              (enumF (map (@length _) mss))).
    assert (EL : forall (B : Type) (f : gmode -> B), map (@length _) (map (map f) mss) = map (@length _) mss).
    { intros B f. rewrite map_map. apply map_ext. intros; apply map_length. }
    assert (SE : forall idx, In idx (enumF (map (@length _) mss)) ->
            exists ml, selects mss idx ml /\ sel_parts mss idx = ml).
    { intros idx Hi. apply enumF_in in Hi. destruct (selects_exists mss idx Hi) as (ml & Hs).
      exists ml. split; [easy|]. now apply sel_parts_ok. }
    assert (HF' : mapM (functions Rops) bs = Ok (map (map gf) mss)).
    { apply mapM_Ok_Forall2. clear -HM HB. revert mss HM. induction HB; intros mss HM; inversion HM as [|? ? ? ? M1 M2]; subst; cbn [map]; constructor; auto.
      apply M1. }
    assert (HG' : mapM (gradients Rops) bs = Ok (map (map gg) mss)).
    { apply mapM_Ok_Forall2. clear -HM HB. revert mss HM. induction HB; intros mss HM; inversion HM as [|? ? ? ? M1 M2]; subst; cbn [map]; constructor; auto.
      apply M1. }
    assert (HO : Forall2 (fun p ms => modes_of (fst p) (snd p) ms) (combine ss bs) (map (map gm_o) mss)).
    { clear -HM. induction HM; cbn [map]; constructor; auto. now apply gmodes_modes. }
    split; [|split; [|split; [|split]]].
    + rewrite map_map. cbn [gf]. rewrite (functions_tp_eq Rops bs dims _ HF'). f_equal. unfold tp_functions. rewrite EL.
      apply map_ext_in. intros idx Hi. destruct (SE idx Hi) as (ml & Hs & ->).
      now rewrite (selects_parts _ _ _ (selects_map gf _ _ _ Hs)).
    + rewrite map_map. cbn [gg]. rewrite (gradients_tp_eq bs dims _ _ HF' HG') by (now rewrite !EL). f_equal. unfold tp_gradients. rewrite EL.
      apply map_ext_in. intros idx Hi. destruct (SE idx Hi) as (ml & Hs & ->).
      now rewrite (sel_parts_ok _ _ _ (selects_map gf _ _ _ Hs)), (sel_parts_ok _ _ _ (selects_map gg _ _ _ Hs)).
    + rewrite map_length, enumF_length. cbn [space_dim]. f_equal. clear -HM HB. revert mss HM.
      induction HB; intros mss HM; inversion HM as [|? ? ? ? M1 M2]; subst; cbn [map]; [reflexivity|]. destruct M1 as (_ & _ & -> & _). f_equal. auto.
    + apply Forall_map_in. intros idx Hi. destruct (SE idx Hi) as (ml & Hs & ->). cbn [gp]. apply in_space_tp.
      destruct (tpphi_in_space bs ss _ idx _ HB HO (selects_map gm_o _ _ _ Hs)) as (ts & A & B). exists ts. split; [exact A|]. intros x Hx. rewrite tpg_phi. now apply B.
    + apply Forall_map_in. intros idx Hi. destruct (SE idx Hi) as (ml & Hs & ->). intros x Hx Hg. cbn [gf gg gp spatial_dim] in *. apply good_point_TP in Hg.
      destruct (tpg_values bs ss mss idx ml x HB HM Hs Hx Hg) as (vs & cs & B & E & HD). fold dims in B, E, HD, Hx. split.
      * rewrite <- (blocks_concat dims x Hx) at 1. rewrite (tp_call_R _ _ _ _ (grad_values_block _ _ _ _ _ _ B)). now rewrite <- E.
      * exists (gradl 1 vs cs). split; [|exact HD]. rewrite <- (blocks_concat dims x Hx) at 1. now apply tp_grad_call_ok.
Qed.

(** ** Differentiation matrices at good points *)
Lemma has_partials_combo (phis : list (list R -> R)) c x d (g : nat -> list R) : length x = d ->
  (forall j, (j < length phis)%nat -> has_partials (nth j phis (fun _ => 0)) x (g j)) ->
  has_partials (combo phis c) x (map (fun a => rsum (fun j => c j * nth a (g j) 0) (length phis)) (seq 0 d)).
Proof.
  intros Hx H. split; [rewrite map_length, seq_length; congruence|]. intros a Ha.
  rewrite (nth_map_seq (fun a => rsum (fun j => c j * nth a (g j) 0) (length phis))) by lia.
  unfold combo. apply is_derive_rsum. intros j Hj. apply is_derive_scal. now apply H.
Qed.
Lemma good_differentiation s b junk xs nodes : basis_of s b -> space_nodes s xs -> (forall x, In x xs -> good_point b x) -> nodes <> [] ->
  (forall x, In x nodes -> length x = spatial_dim s /\ good_point b x) ->
  exists Ds, diff_matrices junk b nodes (Some xs) = Ok Ds /\ length Ds = spatial_dim s
    /\ (forall D, In D Ds -> nrows D = length nodes /\ ncols D = length xs)
    /\ forall f, in_space s f -> forall i, (i < length nodes)%nat ->
         has_partials f (pt nodes i) (map (fun D => rsum (fun k => ent D i k * f (pt xs k)) (length xs)) Ds).
Proof.
  intros HB HN HG Hne Hx. destruct (basis_gmodes s b HB) as (ms & HM). destruct (uni_space s b xs HB HN HG) as (fs & Ef & HD & HU).
  assert (HMo := gmodes_modes s b ms HM). destruct HM as (F & G & L & P & HM). assert (fs = map gf ms) as -> by congruence.
  rewrite Forall_forall in HM, P. destruct HN as (Ln & Hd & HZ). pose proof (space_dim_pos s) as Hp.
  destruct (diff_matrices_core junk (map gf ms) (map gg ms) nodes (Some xs) (spatial_dim s)) as (Ds & E & LD & HE); auto.
  - intros K. apply map_eq_nil in K. subst ms. cbn in L. lia.
  - now rewrite !map_length.
  - intros j x Hj Hin. rewrite map_length in Hj. destruct (Hx x Hin) as [Lx Gx]. set (m0 := GMode (fun _ => Err IndexError) (fun _ => Err IndexError) (fun _ => 0)).
    destruct (HM (nth j ms m0) (nth_In _ _ Hj) x Lx Gx) as (_ & c & Ec & [Lc _]). exists c. split; [|now rewrite Lc].
    unfold gfn. change (fun _ : list R => Err IndexError) with (gg m0). now rewrite map_nth.
  - exists Ds. split; [unfold diff_matrices; rewrite F; cbn [bind]; rewrite G; exact E|]. split; [exact LD|]. split.
    { intros D HDs. apply In_nth_error in HDs. destruct HDs as (a & Ea). destruct (HE a D Ea) as (A & B & _). easy. }
    intros f Hf i Hi. destruct (basis_spans s b HB) as (os & HO & HS). destruct (HS f Hf) as (c0 & Hc0).
    (* coefficients with respect to the modes *)
    destruct (interpolant _ xs (fun i => f (pt xs i)) HU) as (c & Hc).
    assert (Ef' : forall x, length x = spatial_dim s -> f x = combo (map snd (map gm_o ms)) c x).
    { intros x Lx. assert (Z : f x + -1 * combo (map snd (map gm_o ms)) c x = 0); [|lra].
      apply (HZ (fun x => f x + -1 * combo (map snd (map gm_o ms)) c x)); [| |easy].
      - apply in_space_plus; [easy|]. apply in_space_scal, combo_in_space. destruct HMo as (_ & _ & X). eapply Forall_impl; [|exact X]. now intros m [? _].
      - intros y Hy. rewrite <- (modes_lin s b (map gm_o ms) c y HMo); auto. rewrite map_map. cbn [fst gm_o].
        apply in_pt in Hy. destruct Hy as (k & Hk & ->). change (map (fun x0 : gmode => gf x0) ms) with (map gf ms). rewrite Hc by easy. ring. }
    assert (Hin := pt_in _ _ Hi). destruct (Hx _ Hin) as [Lx Gx]. set (x := pt nodes i) in *.
    set (m0 := GMode (fun _ => Err IndexError) (fun _ => Err IndexError) (fun _ => 0)).
    set (g := fun j => match gg (nth j ms m0) x with Ok v => v | Err _ => [] end).
    assert (Hgj : forall j, (j < length ms)%nat -> gfn (map gg ms) j x = Ok (g j) /\ has_partials (gp (nth j ms m0)) x (g j)).
    { intros j Hj. destruct (HM (nth j ms m0) (nth_In _ _ Hj) x Lx Gx) as (_ & c1 & Ec & HP1). unfold g. rewrite Ec. split; [|exact HP1].
      unfold gfn. change (fun _ : list R => Err IndexError) with (gg m0). now rewrite map_nth. }
    eapply has_partials_ext; [intros y Hy; symmetry; apply Ef'; congruence|].
    assert (EP : forall j, nth j (map snd (map gm_o ms)) (fun _ => 0) = gp (nth j ms m0)).
    { intros j. rewrite map_map. cbn [snd gm_o]. change (fun _ : list R => 0) with (gp m0). exact (map_nth gp ms m0 j). }
    assert (HPc := has_partials_combo (map snd (map gm_o ms)) c x (spatial_dim s) g Lx).
    rewrite !map_length in HPc. specialize (HPc (fun j Hj => eq_ind_r (fun h => has_partials h x (g j)) (proj2 (Hgj j Hj)) (EP j))).
    replace (map (fun D => rsum (fun k => ent D i k * f (pt xs k)) (length xs)) Ds)
       with (map (fun a => rsum (fun j => c j * nth a (g j) 0) (length ms)) (seq 0 (spatial_dim s))); [exact HPc|].
    apply (nth_ext _ _ 0 0); [now rewrite !map_length, seq_length|]. intros a Ha. rewrite map_length, seq_length in Ha.
    rewrite (nth_map_seq (fun a => rsum (fun j => c j * nth a (g j) 0) (length ms))) by easy.
    destruct (nth_error Ds a) as [D|] eqn:EDa; [|apply nth_error_None in EDa; lia].
    rewrite (nth_indep _ 0 (rsum (fun k => ent (mkMat 0 0 (fun _ _ => 0)) i k * f (pt xs k)) (length xs))) by (rewrite map_length; lia).
    rewrite (map_nth (fun D => rsum (fun k => ent D i k * f (pt xs k)) (length xs))). rewrite (nth_error_nth _ _ _ EDa).
    destruct (HE a D EDa) as (_ & _ & HH).
    rewrite (rsum_ext (fun k => ent D i k * f (pt xs k)) (fun k => ent D i k * rsum (fun j => V (map gf ms) xs k j * c j) (length ms))).
    2:{ intros k Hk. f_equal. rewrite <- Hc by easy. rewrite <- lin_V. now rewrite map_length. }
    rewrite (rsum_assoc (fun i k => ent D i k) (V (map gf ms) xs) c i). apply rsum_ext. intros j Hj.
    rewrite (HH i j (g j) Hi ltac:(now rewrite map_length) (proj1 (Hgj j Hj))). ring.
Qed.
