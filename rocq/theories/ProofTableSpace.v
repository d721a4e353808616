(** * quadrature_for_space with the shipped tables: error of the chosen rule *)
From Coquelicot Require Import Coquelicot.
From Coq Require Import List Arith Bool ZArith Reals Lra Lia Factorial.
From Verif Require Import Py ModelShapes ModelSpaces ModelQuad ModelGM ModelGauss ModelTools ModelQuadSpace ModelTables ModelDataXG.
From Verif Require Import RSum EnumFacts SpecIndex SpecGeometry SpecPoly SpecIntegral ProofNodeTuples ProofDirichlet ProofGM ProofQuad PropsQuad ProofBasisIndex ProofGauss ProofGauss3 ProofUnisolvent ProofTrace
  ProofQuadSpace PropsQuadSpace ProofTables ProofTables4 ProofTables5 PropsTables.
Import ListNotations.
Local Open Scope R_scope.

(** The volume of a shape, and the product of the volumes of its simplices enlarged by
    the error of a tabulated rule for triangles and tetrahedra. *)
Fixpoint volume (s : shape) : R :=
  match s with Simplex d => 2 ^ d / INR (fact d) | TPShape _ _ bs => fold_right (fun b v => volume b * v) 1 bs end.
Fixpoint enlarged (s : shape) : R :=
  match s with
  | Simplex d => 2 ^ d / INR (fact d) + (if ((d =? 2) || (d =? 3))%nat then table_eps else 0)
  | TPShape _ _ bs => fold_right (fun b v => enlarged b * v) 1 bs
  end.

Lemma fact_mul_le a b : (fact a * fact b <= fact (a + b))%nat.
Proof. induction a as [|a IH]; [cbn; lia|]. change (S a + b)%nat with (S (a + b)). rewrite !fact_simpl. nia. Qed.
Lemma prodfact_le e : prodfact e <= INR (fact (total e)).
Proof.
  induction e as [|k e IH]; [unfold prodfact, total; cbn; lra|]. rewrite prodfact_cons. unfold total in *. cbn [fold_right].
  pose proof (fact_mul_le k (fold_right Nat.add 0%nat e)) as H. apply le_INR in H. rewrite mult_INR in H. pose proof (INR_fact_lt_0 k). nra.
Qed.
Lemma prodfact_pos e : 0 <= prodfact e.
Proof. induction e as [|k e IH]; [unfold prodfact; cbn; lra|]. rewrite prodfact_cons. pose proof (INR_fact_lt_0 k). nra. Qed.
Lemma simplex_moment_bound d e : 0 <= 2 ^ d * (prodfact e / INR (fact (total e + d))) <= 2 ^ d / INR (fact d).
Proof.
  assert (P2 : 0 < 2 ^ d) by (apply pow_lt; lra). pose proof (INR_fact_lt_0 d) as P3. pose proof (INR_fact_lt_0 (total e + d)) as P4.
  pose proof (prodfact_pos e) as P5. pose proof (prodfact_le e) as P6. split.
  - apply Rmult_le_pos; [lra|]. apply Rmult_le_pos; [exact P5|]. apply Rlt_le, Rinv_0_lt_compat. exact P4.
  - unfold Rdiv. apply Rmult_le_compat_l; [lra|].
    apply Rmult_le_reg_r with (INR (fact (total e + d))); [exact P4|]. rewrite Rmult_assoc, Rinv_l, Rmult_1_r by lra.
    apply Rmult_le_reg_l with (INR (fact d)); [exact P3|]. rewrite <- Rmult_assoc, Rinv_r, Rmult_1_l by lra.
    pose proof (fact_mul_le (total e) d) as H. apply le_INR in H. rewrite mult_INR in H. nra.
Qed.

Definition close (q : quad) (sh : shape) (e : list nat) : Prop :=
  exists v, is_int sh (fun x => monoval e (half x)) v /\ 0 <= v <= volume sh
    /\ Rabs (rule q (fun x => monoval e (half x)) - v) <= enlarged sh - volume sh.

Lemma table_eps_pos : 0 < table_eps.
Proof. unfold table_eps. lra. Qed.
Lemma volume_pos s : 0 < volume s.
Proof.
  induction s as [d|c n bs IH] using shape_ind'; cbn [volume]; [apply svol_pos|].
  induction IH as [|b bs Hb _ IHs]; cbn [fold_right]; [lra|]. now apply Rmult_lt_0_compat.
Qed.
Lemma volume_le s : volume s <= enlarged s.
Proof.
  induction s as [d|c n bs IH] using shape_ind'; cbn [volume enlarged].
  - pose proof table_eps_pos. destruct (_ || _); lra.
  - induction IH as [|b bs Hb _ IHs]; cbn [fold_right]; [lra|]. pose proof (volume_pos b). pose proof (volume_pos (TPShape c n bs)) as P. cbn [volume] in P. nra.
Qed.

(** A rule that integrates polynomials exactly, or to the error of the tables. *)
Lemma close_exact q d n e : wf_quad q -> q_dim q = d -> integrates q (Simplex d) n -> length e = d -> (total e <= n)%nat -> close q (Simplex d) e.
Proof.
  intros W D I L T. exists (2 ^ d * (prodfact e / INR (fact (total e + d)))). split; [exact (dirichlet_ref d e L)|]. split; [apply simplex_moment_bound|].
  assert (P : is_poly d n (fun x => monoval e (half x))).
  { apply (is_poly_affine_coords d n (monoval e) _ (1 / 2) (1 / 2)); [intros c; field|]. exists [(1, e)]. split; [constructor; [easy|constructor]|].
    intros x _. unfold polyval. cbn [fold_right fst snd]. ring. }
  destruct (I _ P) as (v & Hv & Hq). rewrite (q_call_rule q _ (fun x => monoval e (half x)) W) in Hq by reflexivity.
  assert (Hr : rule q (fun x => monoval e (half x)) = v) by congruence. rewrite Hr.
  rewrite (is_int_unique _ _ _ _ Hv (dirichlet_ref d e L)). rewrite Rminus_eq_0, Rabs_R0. pose proof (volume_le (Simplex d)). lra.
Qed.
Lemma close_within q d n e : wf_quad q -> (d = 2 \/ d = 3)%nat -> integrates_within q (Simplex d) n table_eps -> length e = d -> (total e <= n)%nat -> close q (Simplex d) e.
Proof.
  intros W Hd I L T. exists (2 ^ d * (prodfact e / INR (fact (total e + d)))). split; [exact (dirichlet_ref d e L)|]. split; [apply simplex_moment_bound|].
  destruct (I [(1, e)]) as (v & r & Hv & Hq & B); [constructor; [easy|constructor]|].
  assert (E1 : forall x, polyval [(1, e)] (half x) = monoval e (half x)) by (intros x; unfold polyval; cbn [fold_right fst snd]; ring).
  rewrite (q_call_rule q _ (fun x => monoval e (half x)) W) in Hq by (intros x _; now rewrite E1).
  assert (Hr : rule q (fun x => monoval e (half x)) = r) by congruence. rewrite Hr.
  assert (Hv' : is_int (Simplex d) (fun x => monoval e (half x)) v) by (eapply is_int_ext; [|exact Hv]; intros x _; apply E1).
  rewrite <- (is_int_unique _ _ _ _ Hv' (dirichlet_ref d e L)). unfold coef_sum in B. cbn [fold_right fst] in B. rewrite Rabs_R1 in B.
  cbn [enlarged volume]. replace ((d =? 2) || (d =? 3))%nat with true by (destruct Hd as [->| ->]; reflexivity). lra.
Qed.

Lemma xg_ok : table_ok xg.
Proof.
  pose proof C72_rectangular as (_ & _ & _ & _ & _ & R2 & R3). rewrite Forall_forall in R2, R3.
  assert (H : forall d t order pts wts, (forall kv, In kv t -> length (fst (snd kv)) = length (snd (snd kv)) /\ Forall (fun p => length p = d) (fst (snd kv))) ->
     forall k kw, option_map (fun pw : list (list Z) * list Z => (map (map (dec k)) (fst pw), map (dec kw) (snd pw))) (assoc order t) = Some (pts, wts) ->
     Forall (fun p => length p = d) pts /\ length wts = length pts).
  { intros d t order pts wts HR k kw. destruct (assoc order t) as [pw|] eqn:E; [|discriminate]. cbn [option_map]. intros H. injection H as <- <-.
    apply assoc_In in E. destruct (HR _ E) as (H1 & H2). cbn [fst snd] in H1, H2. split; [|now rewrite !map_length].
    apply Forall_map. eapply Forall_impl; [|exact H2]. intros p. now rewrite map_length. }
  intros d n pts wts [->| ->]; unfold xg, read_xg; cbn [Nat.eqb]; intros E; eapply H; [exact R2|exact E|exact R3|exact E].
Qed.
Lemma pn_close eigh rj d n q e : (d = 1%nat -> eigh_at eigh 0 0 n) -> quadrature_for_pn eigh rj xg d n (Simplex d) = Ok q ->
  length e = d -> (total e <= n)%nat -> wf_quad q /\ q_dim q = d /\ close q (Simplex d) e.
Proof.
  intros HE Eq L T. destruct (pn_chosen eigh rj xg d n xg_ok HE) as (q' & Eq' & W & D & _ & _ & C).
  assert (q' = q) by congruence. subst q'. split; [exact W|]. split; [exact D|]. destruct (le_lt_dec 2 d) as [H2|H2].
  - destruct (C72_xiao_gimbutas n d) as (X1 & X2).
    assert (DA : xg_available n d \/ ~ xg_available n d).
    { unfold xg_available. destruct (Nat.eq_dec d 2), (Nat.eq_dec d 3), (le_dec 1 n), (le_dec n 50), (le_dec n 15); try (left; split; [easy|]; (now left) || (now right)); right; lia. }
    destruct DA as [A|A].
    + destruct (X1 A) as (q' & Ex & _ & _ & _ & _ & _ & TI). specialize (C H2). rewrite Ex in C. assert (q' = q) by congruence. subst q'.
      apply (close_within q d n e W); try assumption. destruct A as (_ & [(-> & _)|(-> & _)]); lia.
    + destruct (C34_pn_fallback eigh rj (fun _ _ => None) d n) as (F1 & q' & F2 & F3); [intros ? ? ? ? _ E; discriminate|exact H2|now right|].
      specialize (C H2). rewrite (X2 A) in C. assert (q' = q) by congruence. subst q'. now apply (close_exact q d n e).
  - assert (EN : quadrature_for_pn eigh rj (fun _ _ => None) d n (Simplex d) = Ok q) by (rewrite <- Eq; destruct d as [|[|d]]; [reflexivity|reflexivity|lia]).
    apply (close_exact q d n e W D); [|exact L|exact T].
    apply (C34_pn_exact eigh rj (fun _ _ => None) d n q); [intros ? ? ? ? _ E; discriminate| |exact HE|exact EN].
    intros d' n' q' E. unfold xg_quad in E. destruct (negb _); discriminate.
Qed.

Lemma half_app x y : half (x ++ y) = half x ++ half y.
Proof. apply map_app. Qed.
Lemma half_concat xs : half (concat xs) = concat (map half xs).
Proof. unfold half. now rewrite concat_map. Qed.
Lemma prod_close qs shs es : Forall wf_quad qs ->
  Forall2 (fun a b => sh_ok b /\ q_dim a = shape_dim b) qs shs ->
  Forall2 (fun ab e => length e = shape_dim (snd ab) /\ close (fst ab) (snd ab) e) (combine qs shs) es ->
  exists v, is_ints shs (fun x => monoval (concat es) (half x)) v /\ 0 <= v <= fold_right (fun b v => volume b * v) 1 shs
    /\ Rabs (fold_right Rmult 1 (map (fun p => rule (fst p) (snd p)) (combine qs (map (fun e x => monoval e (half x)) es))) - v)
         <= fold_right (fun b v => enlarged b * v) 1 shs - fold_right (fun b v => volume b * v) 1 shs.
Proof.
  intros W H HC. revert es W HC. induction H as [|a b qs shs (H1 & H2) H IH]; intros es W HC; cbn [combine] in HC.
  - inversion HC; subst. exists 1. cbn [is_ints concat map combine fold_right]. split; [reflexivity|]. split; [lra|]. rewrite Rminus_eq_0, Rabs_R0. lra.
  - inversion HC as [|? e ? es' (L1 & v1 & I1 & B1 & C1) HC']; subst. inversion W as [|? ? Wa W']; subst. cbn [fst snd] in *.
    destruct (IH es' W' HC') as (v2 & I2 & B2 & C2). exists (v1 * v2). cbn [concat map combine fold_right fst snd].
    set (V1 := volume b) in *. set (V2 := fold_right (fun b v => volume b * v) 1 shs) in *.
    set (E1 := enlarged b) in *. set (E2 := fold_right (fun b v => enlarged b * v) 1 shs) in *.
    set (r1 := rule a (fun x => monoval e (half x))) in *.
    set (r2 := fold_right Rmult 1 (map (fun p => rule (fst p) (snd p)) (combine qs (map (fun e x => monoval e (half x)) es')))) in *.
    split; [|split].
    + apply is_ints_cons with (f := fun x => monoval e (half x)) (g := fun x => monoval (concat es') (half x)); [exact I1|exact I2|].
      intros p r Hp Hr. rewrite half_app. apply monoval_app. unfold half. rewrite map_length, L1. symmetry. now apply in_shape_len.
    + split; [nra|]. apply Rmult_le_compat; lra.
    + replace (r1 * r2 - v1 * v2) with (r1 * (r2 - v2) + v2 * (r1 - v1)) by ring.
      assert (A1 : Rabs r1 <= E1).
      { replace r1 with (v1 + (r1 - v1)) by ring. eapply Rle_trans; [apply Rabs_triang|]. rewrite (Rabs_pos_eq v1) by lra. lra. }
      eapply Rle_trans; [apply Rabs_triang|]. rewrite !Rabs_mult, (Rabs_pos_eq v2) by lra.
      replace (E1 * E2 - V1 * V2) with (E1 * (E2 - V2) + V2 * (E1 - V1)) by ring.
      apply Rplus_le_compat; apply Rmult_le_compat; try apply Rabs_pos; lra.
Qed.

Lemma zero_volume s : sh_ok s -> shape_dim s = 0%nat -> volume s = 1.
Proof.
  induction s as [d|c n bs IH] using shape_ind'; intros HS D.
  - cbn [shape_dim] in D. subst d. cbn. field.
  - inversion HS as [|? ? FS]; subst. cbn [shape_dim volume] in *. clear HS.
    induction IH as [|b bs Hb _ IHs]; [reflexivity|]. inversion FS; subst. unfold sum_nat in D. cbn [map fold_right] in *.
    rewrite Hb by (try easy; lia). rewrite IHs by (try easy; unfold sum_nat; lia). ring.
Qed.
Lemma choose_close eigh rj : (forall n, eigh_at eigh 0 0 n) ->
  forall s sh q, fits s sh -> quadrature_for_space eigh rj xg s sh = Ok q ->
  wf_quad q /\ q_dim q = shape_dim sh /\ forall e, space_exp s e -> close q sh e.
Proof.
  intros HE. induction s as [d n|c bs IH] using fspace_ind'; intros sh q Hf E.
  - inversion Hf; subst. cbn [quadrature_for_space] in E.
    destruct (pn_chosen eigh rj xg d n xg_ok (fun _ => HE n)) as (q' & Eq' & W & D & _). assert (q' = q) by congruence. subst q'.
    split; [exact W|]. split; [exact D|]. intros e He. inversion He as [? ? ? L T|]; subst. exact (proj2 (proj2 (pn_close eigh rj _ n q e (fun _ => HE n) E L T))).
  - pose proof (fits_ok _ _ Hf) as HS. pose proof (fits_dim _ _ Hf) as HD.
    inversion Hf as [|? c' ? shs F2]; subst. cbn [quadrature_for_space] in E. cbn [shape_dim] in HD.
    rewrite HD, Nat.eqb_refl in E. cbn [negb] in E. change (total (map shape_dim shs)) with (sum_nat (map shape_dim shs)) in *.
    destruct (sum_nat (map shape_dim shs) =? 0)%nat eqn:Z.
    + cbn [bind] in E. destruct (assert_degrees _ _); [|discriminate]. cbn [bind] in E. assert (q = zero_dim_quad) as -> by congruence.
      apply Nat.eqb_eq in Z. split; [apply zero_dim_wf|]. split; [now cbn [shape_dim]|]. intros e He.
      pose proof (space_exp_len _ _ He) as Le. rewrite HD, Z in Le. destruct e; [|discriminate].
      assert (V1 : volume (TPShape c' (sum_nat (map shape_dim shs)) shs) = 1).
      { pose proof (zero_volume (TPShape c' (sum_nat (map shape_dim shs)) shs) HS Z) as V. exact V. }
      exists 1. rewrite V1. split; [|split; [lra|]].
      * exact (is_int_dim0 (TPShape c' (sum_nat (map shape_dim shs)) shs) HS Z (fun x => monoval [] (half x))).
      * rewrite rule_zero_dim. cbn [monoval half map]. rewrite Rminus_eq_0, Rabs_R0. pose proof (volume_le (TPShape c' (sum_nat (map shape_dim shs)) shs)). lra.
    + destruct (zipM _ bs shs) as [qs|] eqn:Zq; [|discriminate]. cbn [bind] in E. destruct (tp_quad qs) as [q'|] eqn:T; [|discriminate]. cbn [bind] in E.
      destruct (assert_degrees _ _); [|discriminate]. cbn [bind] in E. assert (q = q') as -> by congruence. clear E Z.
      assert (H : Forall wf_quad qs /\ Forall2 (fun a b => sh_ok b /\ q_dim a = shape_dim b) qs shs
          /\ forall es, Forall2 space_exp bs es -> Forall2 (fun ab e => length e = shape_dim (snd ab) /\ close (fst ab) (snd ab) e) (combine qs shs) es).
      { clear T HS HD Hf. revert qs Zq. induction F2 as [|b s bs shs Hb F2 IHs]; intros qs Zq; cbn [zipM] in Zq.
        - injection Zq as <-. repeat split; try constructor. intros es He. inversion He; subst. constructor.
        - inversion IH as [|? ? IH1 IH2]; subst. destruct (quadrature_for_space eigh rj xg b s) as [qa|] eqn:Ea; [|discriminate]. cbn [bind] in Zq.
          destruct (zipM _ bs shs) as [qs'|]; [|discriminate]. cbn [bind] in Zq. assert (qs = qa :: qs') as -> by congruence.
          destruct (IHs IH2 qs' eq_refl) as (G1 & G2 & G3). destruct (IH1 s qa Hb Ea) as (K1 & K2 & K3).
          split; [now constructor|]. split; [constructor; [split; [now apply (fits_ok b)|easy]|easy]|].
          intros es He. inversion He as [|? e ? es' He1 He2]; subst. cbn [combine]. constructor; [|now apply G3]. cbn [fst snd]. split; [|now apply K3].
          rewrite (space_exp_len _ _ He1). now apply fits_dim. }
      destruct H as (W & H2 & H3). pose proof (tp_quad_wf qs q' W T) as Wq. split; [easy|].
      destruct (tp_quad_inv qs q' W T) as (Dq & _).
      assert (DD : q_dim q' = sum_nat (map shape_dim shs)).
      { rewrite Dq. clear -H2. induction H2 as [|a b qs shs [_ H] _ IH]; [reflexivity|]. unfold sum_nat in *. cbn [map fold_right]. lia. }
      split; [easy|]. intros e He. inversion He as [|? ? es Hes]; subst. pose proof (H3 es Hes) as H4.
      destruct (prod_close qs shs es W H2 H4) as (v & I & B & C). exists v. split; [apply is_int_TP; exact I|]. split; [exact B|].
      assert (LE : length es = length qs).
      { rewrite <- (Forall2_length _ _ _ H4), combine_length, <- (Forall2_length _ _ _ H2). lia. }
      rewrite (tp_rule_prod qs q' (map (fun e x => monoval e (half x)) es) _ W T); [exact C|now rewrite map_length|].
      intros xs Hxs. rewrite half_concat. clear -Hxs H4 H2 W. revert xs es Hxs H4. induction H2 as [|a b qs shs (H1 & H2) H IH]; intros xs es Hxs H4; cbn [combine] in H4.
      * inversion H4; subst. inversion Hxs; subst. reflexivity.
      * inversion H4 as [|? e ? es' (L1 & _) H4']; subst. inversion Hxs as [|x ? xs' ? X1 X2]; subst. inversion W as [|? ? (Wa & _) W']; subst.
        cbn [map concat]. rewrite monoval_app.
        -- unfold prod_app in *. cbn [combine map fold_right fst snd]. rewrite (IH W' xs' es' X2 H4'). reflexivity.
        -- unfold half. rewrite map_length. rewrite Forall_forall in Wa. rewrite (Wa x X1), L1. cbn [snd]. congruence.
Qed.

(** Every function of the space is a combination of these monomials in the coordinates (x + 1) / 2. *)
Lemma space_exp_affine s e : space_exp s e -> ProofUnisolvent.in_space s (fun x => monoval e (map (fun t => 2 * t - 1) x)).
Proof.
  revert e. induction s as [d n|c bs IH] using fspace_ind'; intros e H; inversion H as [? ? ? L T|? ? es F2]; subst.
  - apply in_space_pn. apply (is_poly_affine_coords (length e) n (monoval e) _ 2 (-1)); [intros; ring|]. exists [(1, e)]. split; [constructor; [easy|constructor]|].
    intros x _. unfold polyval. cbn [fold_right fst snd]. ring.
  - apply in_space_tp. clear H. induction F2 as [|b e bs es Hb F2 IHs].
    + exists [(1, [])]. split; [constructor; [exists []; split; [constructor|reflexivity]|constructor]|]. intros x Hx. unfold polyval. cbn. ring.
    + inversion IH as [|? ? IH1 IH2]; subst. specialize (IHs IH2). pose proof (in_spaces_cons b bs _ _ (IH1 e Hb) IHs) as (ts & A & B).
      exists ts. split; [exact A|]. intros x Hx. rewrite <- (B x Hx). rewrite <- (firstn_skipn (spatial_dim b) x) at 1. rewrite map_app. cbn [concat].
      apply ProofUnisolvent.monoval_app. rewrite map_length, firstn_length, (space_exp_len _ _ Hb).
      cbn [map] in Hx. change (sum_nat (spatial_dim b :: map spatial_dim bs)) with (spatial_dim b + sum_nat (map spatial_dim bs))%nat in Hx. lia.
Qed.
Lemma space_half s F : ProofUnisolvent.in_space s F -> exists ts : list (R * list nat), Forall (fun t => space_exp s (snd t)) ts
  /\ forall x, length x = spatial_dim s -> F x = polyval ts (half x).
Proof.
  intros HF. destruct (in_space_terms s s (spatial_dim s) (map (fun t => 2 * t - 1)) F HF (space_exp_affine s) eq_refl) as (ts & A & B).
  - intros p Hp. now rewrite map_length.
  - exists ts. split; [exact A|]. intros x Hx. specialize (B (half x)). cbv beta in B. rewrite <- B by (unfold half; now rewrite map_length).
    f_equal. unfold half. rewrite map_map. rewrite <- (map_id x) at 1. apply map_ext. intros t. field.
Qed.
