(** * Proofs about ModelQuadSpace.v *)
From Coquelicot Require Import Coquelicot.
From Coq Require Import List Arith Bool ZArith QArith Reals Lra Lia.
From Verif Require Import Py PyToolsModel ModelNd ModelShapes ModelSpaces ModelNodes ModelModes ModelQuad ModelGM ModelGauss ModelLinAlg ModelTools ModelQuadSpace.
From Verif Require Import RSum EnumFacts IntFacts SpecIndex SpecGeometry SpecPoly SpecIntegral ProofNodeTuples ProofDirichlet
  ProofGM ProofQuad PropsGM PropsQuad ProofBasisIndex ProofGauss3 PropsGauss PropsLobatto ProofShapes.
Import ListNotations.
Local Open Scope R_scope.

(** ** Functions of a space *)
(** Linear combinations of generators, as functions of the points of length [d]. *)
Inductive lin_span (d : nat) (G : (list R -> R) -> Prop) : (list R -> R) -> Prop :=
| span_gen f : G f -> lin_span d G f
| span_zero h : (forall x, length x = d -> h x = 0) -> lin_span d G h
| span_plus f g h : lin_span d G f -> lin_span d G g -> (forall x, length x = d -> h x = f x + g x) -> lin_span d G h
| span_scal c f h : lin_span d G f -> (forall x, length x = d -> h x = c * f x) -> lin_span d G h.
(** Products f_1(x_1) ... f_k(x_k) with factors from given sets of functions of [d_i] variables. *)
Definition prod_fn (Ps : list (nat * ((list R -> R) -> Prop))) (F : list R -> R) : Prop :=
  exists fs, Forall2 (fun P f => snd P f) Ps fs
    /\ forall xs, Forall2 (fun x P => length x = fst P) xs Ps -> F (concat xs) = prod_app fs xs.
Fixpoint in_space (s : fspace) : (list R -> R) -> Prop :=
  match s with
  | PN d n => is_poly d n
  | TPSpace _ bs => lin_span (sum_nat (map spatial_dim bs)) (prod_fn (map (fun b => (spatial_dim b, in_space b)) bs))
  end.

(** A rule integrates every function of a set. *)
Definition exact_for (sh : shape) (q : quad) (P : (list R -> R) -> Prop) : Prop :=
  forall F, P F -> is_int sh F (rule q F).
Lemma rule_ext_len q f g : wf_quad q -> (forall x, length x = q_dim q -> f x = g x) -> rule q f = rule q g.
Proof. intros [W _] H. apply rule_ext. intros x Hx. apply H. rewrite Forall_forall in W. now apply W. Qed.
Lemma is_int_zero sh : is_int sh (fun _ => 0) 0.
Proof.
  assert (S0 : forall d t, is_int_simplex d t (fun _ => 0) 0).
  { induction d as [|d IH]; intros t; cbn [is_int_simplex]; [reflexivity|]. exists (fun _ => 0). split; [intros; apply IH|].
    assert (X := is_RInt_const (-1) (-1 + t) 0). unfold Hierarchy.scal in X. cbn in X. unfold mult in X. cbn in X. rewrite Rmult_0_r in X. exact X. }
  induction sh as [d|c n bs IH] using shape_ind'; [apply S0|].
  apply is_int_TP. induction IH as [|b bs Hb _ IHs]; cbn [is_ints]; [easy|]. exists (fun _ => 0). split; auto.
Qed.
Lemma exact_for_span sh q G : sh_ok sh -> wf_quad q -> q_dim q = shape_dim sh ->
  exact_for sh q G -> exact_for sh q (lin_span (shape_dim sh) G).
Proof.
  intros HS W D H F HF. induction HF as [f Hf|h Hh|f g h _ IH1 _ IH2 E|c f h _ IH E].
  - now apply H.
  - rewrite (rule_ext_len q h (fun _ => 0 * 0)) by (try easy; intros x Hx; rewrite Hh by congruence; ring).
    rewrite (rule_scal q 0 (fun _ => 0)) by easy. rewrite Rmult_0_l.
    eapply is_int_ext; [|apply is_int_zero]. intros x Hx. symmetry. apply Hh. now apply in_shape_len.
  - rewrite (rule_ext_len q h (fun x => f x + g x)) by (try easy; intros x Hx; apply E; congruence).
    rewrite rule_plus by easy. eapply is_int_ext; [|apply (is_int_plus _ _ _ _ _ IH1 IH2)]. intros x Hx. symmetry. apply E. now apply in_shape_len.
  - rewrite (rule_ext_len q h (fun x => c * f x)) by (try easy; intros x Hx; apply E; congruence).
    rewrite rule_scal by easy. eapply is_int_ext; [|apply (is_int_scal _ c _ _ IH)]. intros x Hx. symmetry. apply E. now apply in_shape_len.
Qed.
Fixpoint split_at_dims (ds : list nat) (r : list R) : list (list R) :=
  match ds with [] => [] | d :: ds' => firstn d r :: split_at_dims ds' (skipn d r) end.
Lemma exact_for_prod qs shs q c Ps : Forall wf_quad qs -> tp_quad qs = Ok q ->
  Forall2 (fun a b => sh_ok b /\ q_dim a = shape_dim b) qs shs ->
  Forall2 (fun ab P => exact_for (snd ab) (fst ab) (snd P) /\ fst P = shape_dim (snd ab)) (combine qs shs) Ps ->
  exact_for (TPShape c (sum_nat (map shape_dim shs)) shs) q (prod_fn Ps).
Proof.
  intros W E H HP F (fs & Hfs & HF).
  assert (LP : length Ps = length qs).
  { rewrite <- (Forall2_length _ _ _ HP), combine_length, <- (Forall2_length _ _ _ H). lia. }
  rewrite (tp_rule_prod qs q fs F W E).
  - apply is_int_TP. clear E q.
    revert Ps fs F HP Hfs HF LP. induction H as [|a b qs shs (H1 & H2) H IH]; intros Ps fs F HP Hfs HF LP.
    + cbn [combine] in HP. inversion HP; subst. inversion Hfs; subst. cbn [is_ints combine map fold_right]. apply (HF []). constructor.
    + cbn [combine] in HP. inversion HP as [|? P ? Ps' [P1 P2] HP']; subst. inversion Hfs as [|? f ? fs' F1 F2]; subst.
      inversion W as [|? ? Wa W']; subst. cbn [fst snd] in P1, P2. cbn [combine map fold_right fst snd].
      set (g := fun r => prod_app fs' (split_at_dims (map shape_dim shs) r)).
      assert (SP : forall r, in_shapes shs r -> exists xs, r = concat xs /\ Forall2 (fun x P => length x = fst P) xs Ps'
                /\ Forall2 (fun x s => length x = shape_dim s) xs shs).
      { clear -HP' H. revert Ps' HP'. induction H as [|a b qs shs (H1 & H2) H IH]; intros Ps HP r Hr; cbn [in_shapes] in Hr.
        - cbn [combine] in HP. inversion HP; subst. exists []. repeat split; constructor.
        - cbn [combine] in HP. inversion HP as [|? P ? Ps' [P1 P2] HP']; subst. destruct Hr as (p & r' & -> & Hp & Hr).
          destruct (IH Ps' HP' r' Hr) as (xs & -> & X1 & X2). exists (p :: xs). cbn [snd fst] in P2.
          pose proof (in_shape_len b H1 p Hp) as Lp. repeat split; constructor; try easy. congruence. }
      assert (SD : forall xs, Forall2 (fun x s => length x = shape_dim s) xs shs -> split_at_dims (map shape_dim shs) (concat xs) = xs).
      { clear. intros xs H. induction H as [|x s xs shs Hx H IH]; [reflexivity|]. cbn [map split_at_dims concat]. rewrite <- Hx.
        rewrite firstn_app, firstn_all, skipn_app, skipn_all, Nat.sub_diag. cbn [firstn skipn app]. now rewrite app_nil_r, IH. }
      apply is_ints_cons with (f := f) (g := g).
      * now apply P1.
      * apply IH with (Ps := Ps'); try easy; [|cbn in LP; lia].
        intros xs Hxs. unfold g. rewrite SD; [reflexivity|]. clear -Hxs HP' H.
        revert Ps' xs HP' Hxs. induction H as [|a b qs shs (H1 & H2) H IH]; intros Ps xs HP Hxs; cbn [combine] in HP.
        -- inversion HP; subst. inversion Hxs; subst. constructor.
        -- inversion HP as [|? P ? Ps' [P1 P2] HP']; subst. inversion Hxs as [|x ? xs' ? X1 X2]; subst. cbn [snd fst] in P2.
           constructor; [congruence|now apply (IH Ps')].
      * intros p r Hp Hr. destruct (SP r Hr) as (xs & -> & X1 & X2). unfold g. rewrite SD by easy.
        apply (HF (p :: xs)). constructor; [|easy]. rewrite P2. now apply in_shape_len.
  - rewrite <- (Forall2_length _ _ _ Hfs). exact LP.
  - intros xs Hxs. apply HF. clear -Hxs HP H W. revert Ps xs HP Hxs.
    induction H as [|a b qs shs (H1 & H2) H IH]; intros Ps xs HP Hxs; cbn [combine] in HP; inversion HP as [|? P ? Ps' [P1 P2] HP']; subst;
      inversion Hxs as [|x ? xs' ? X1 X2]; subst; constructor.
    + inversion W as [|? ? [Wa _] W']; subst. rewrite Forall_forall in Wa. rewrite (Wa x X1). cbn [snd] in P2. congruence.
    + inversion W; subst. now apply IH.
Qed.

(** Point evaluation is the integral over a product of points. *)
Lemma is_int_dim0 sh : sh_ok sh -> shape_dim sh = 0%nat -> forall F, is_int sh F (F []).
Proof.
  induction sh as [d|c n bs IH] using shape_ind'; intros HS D F.
  - cbn [shape_dim] in D. subst d. reflexivity.
  - inversion HS as [|? ? FS]; subst. cbn [shape_dim] in D. apply is_int_TP. clear HS. revert F.
    induction IH as [|b bs Hb _ IHs]; intros F; [reflexivity|]. inversion FS; subst. unfold sum_nat in D. cbn [map fold_right] in D.
    cbn [is_ints]. exists (fun p => F (p ++ [])). split.
    + intros p Hp. apply (IHs ltac:(unfold sum_nat; lia) ltac:(easy) (fun q => F (p ++ q))).
    + apply (Hb ltac:(easy) ltac:(lia) (fun p => F (p ++ []))).
Qed.
Lemma fits_ok s sh : fits s sh -> sh_ok sh.
Proof.
  revert sh. induction s as [d n|c bs IH] using fspace_ind'; intros sh H; inversion H as [|? c' ? shs HF]; subst; [constructor|].
  constructor. clear H. induction HF as [|b s bs shs Hb HF IHs]; [constructor|]. inversion IH; subst. constructor; auto.
Qed.
Lemma zero_dim_wf : wf_quad zero_dim_quad.
Proof. split; [constructor; [reflexivity|constructor]|reflexivity]. Qed.
Lemma rule_zero_dim F : rule zero_dim_quad F = F [].
Proof. unfold rule, zero_dim_quad, dotR. cbn [q_weights q_nodes map combine fold_right fst snd]. ring. Qed.

Lemma tp_quad_defined qs : Forall wf_quad qs -> (0 < sum_nat (map q_dim qs))%nat ->
  (forall a, In a qs -> exists d, exact_to a = Ok d /\ d <> NInf /\ d <> NNpInf false) ->
  exists q, tp_quad qs = Ok q.
Proof.
  intros W Hd H. unfold tp_quad.
  destruct (ProofTPNodes.tensor_product_pts_ok (map quad_points qs)) as (x & Ex & Dx & C1 & C0 & _).
  { apply Forall_map. eapply Forall_impl; [|exact W]. intros a. apply wf_quad_points. }
  destruct (tp_weights qs) as (ws & Ew & Hw). rewrite Ex. cbn [bind]. rewrite Ew. cbn [bind]. rewrite Hw.
  rewrite map_map in C1, C0. cbn [quad_points pts_dim] in C1, C0.
  assert (LL : length (pts_cols x) = prod_nat (map (fun q => length (q_weights q)) qs)).
  { assert (EL : map (fun q => length (q_weights q)) qs = map (fun q => length (q_nodes q)) qs).
    { apply map_ext_in. intros a Ha. rewrite Forall_forall in W. now destruct (W a Ha). }
    rewrite EL. rewrite C1.
    - rewrite tp_tuples_length. f_equal. rewrite !map_map. reflexivity.
    - change (sum_nat (map q_dim qs) <> 0%nat). lia. }
  rewrite map_length, enumF_length, LL, Nat.eqb_refl. cbn [negb].
  destruct qs as [|q0 qs]; [eexists; reflexivity|].
  assert (DS : forall l, (forall a, In a l -> exists d, exact_to a = Ok d /\ d <> NInf /\ d <> NNpInf false) ->
    exists ds, map exact_to l = map Ok ds /\ Forall (fun a => a <> NInf /\ a <> NNpInf false) ds).
  { induction l as [|a l IH]; intros Hl; [exists []; repeat constructor|]. destruct (Hl a (or_introl eq_refl)) as (d & E & D1 & D2).
    destruct IH as (ds & E' & F'); [intros; apply Hl; now right|]. exists (d :: ds). cbn [map]. split; [congruence|]. constructor; easy. }
  destruct (DS (q0 :: qs) H) as (ds & E & F).
  destruct (C44_min_float ds) as (d & Ed & _); [intros ->; discriminate|easy|]. rewrite E, Ed. eexists. reflexivity.
Qed.

Section Choose.
  Context (eigh : eigh_t) (rj : roots_t) (table : xg_table).
  (** The points of a table entry for triangles or tetrahedra have the right number of coordinates, and there is one weight per point. *)
  Definition table_ok : Prop := forall d n pts wts, (d = 2 \/ d = 3)%nat -> table d n = Some (pts, wts) ->
    Forall (fun p => length p = d) pts /\ length wts = length pts.
  (** Every rule built from the table is exact to the order under which it is listed. *)
  Definition table_exact : Prop := forall d n q, xg_quad table n d = Ok q -> integrates q (Simplex d) n.

  Lemma xg_inv n d q : xg_quad table n d = Ok q -> table_ok ->
    (d = 2 \/ d = 3)%nat /\ wf_quad q /\ q_dim q = d /\ exact_to q = Ok (degree n).
  Proof.
    unfold xg_quad. destruct ((d =? 2) || (d =? 3))%nat eqn:D; [|discriminate]. cbn [negb]. intros E HT. apply orb_prop in D. rewrite !Nat.eqb_eq in D.
    destruct (table d n) as [[pts wts]|] eqn:T; [|discriminate]. destruct (HT _ _ _ _ D T) as [T1 T2].
    destruct (equilateral_to_unit_map d) as [m|] eqn:Em; [|discriminate]. cbn [bind] in E.
    destruct (mapM (am_call m) pts) as [nodes|] eqn:En; [|discriminate]. cbn [bind] in E.
    destruct (am_jacobian m) as [j|] eqn:Ej; [|discriminate]. cbn [bind] in E.
    match goal with H : Ok ?x = Ok q |- _ => assert (q = x) as -> by congruence end. split; [easy|].
    assert (R : nrows (am_a m) = d) by (destruct D as [-> | ->]; injection Em as <-; reflexivity).
    assert (HN : Forall (fun x => length x = d) nodes /\ length nodes = length pts).
    { clear E T T2. revert nodes En. induction pts as [|p pts IH]; intros nodes En; cbn [mapM] in En; [injection En as <-; split; [constructor|reflexivity]|].
      destruct (am_call m p) as [y|] eqn:Ey; [|discriminate]. cbn [bind] in En. destruct (mapM (am_call m) pts) as [ys|]; [|discriminate]. cbn [bind] in En.
      injection En as <-. inversion T1; subst. destruct (IH H2 ys eq_refl) as [I1 I2]. split; [|cbn; lia]. constructor; [|easy].
      unfold am_call in Ey. destruct (negb _); [discriminate|]. destruct (negb _); [discriminate|]. injection Ey as <-. now rewrite map_length, seq_length. }
    destruct HN as [N1 N2]. split; [split; cbn [q_nodes q_weights q_dim]; [easy|rewrite map_length; congruence]|]. split; reflexivity.
  Qed.
  Lemma xg_defined n d : table_ok -> (exists q, xg_quad table n d = Ok q) \/ xg_quad table n d = Err RuleUnavailable.
  Proof.
    intros HT. unfold xg_quad. destruct ((d =? 2) || (d =? 3))%nat eqn:D; [|now right]. cbn [negb].
    apply orb_prop in D. rewrite !Nat.eqb_eq in D.
    destruct (table d n) as [[pts wts]|] eqn:T; [|now right]. destruct (HT _ _ _ _ D T) as [T1 T2]. left.
    assert (HM : forall m, nrows (am_a m) = d -> ncols (am_a m) = d -> length (am_b m) = d -> exists ys, mapM (am_call m) pts = Ok ys).
    { intros m R C B. clear T T2. induction pts as [|p pts IH]; [eexists; reflexivity|]. apply Forall_cons_iff in T1. destruct T1 as [T1 T3]. cbn [mapM].
      unfold am_call at 1. rewrite C, B, R, T1, Nat.eqb_refl. cbn [negb bind]. destruct (IH T3) as (ys & ->). eexists. reflexivity. }
    destruct D as [-> | ->]; cbn [equilateral_to_unit_map bind]; (match goal with |- context [mapM (am_call ?m) _] => destruct (HM m eq_refl eq_refl eq_refl) as (ys & ->) end);
      cbn [bind]; unfold am_jacobian, np_det; cbn [am_a nmat_of_rows nrows ncols length hd Nat.eqb bind]; eexists; reflexivity.
  Qed.

  Lemma degree_ge a b : py_ge (degree a) (degree b) = Ok (b <=? a)%nat.
  Proof.
    unfold degree. rewrite py_ge_fin. f_equal. destruct (b <=? a)%nat eqn:E.
    - apply Nat.leb_le in E. apply Qle_bool_iff. unfold Qle, inject_Z. cbn. lia.
    - apply Nat.leb_gt in E. destruct (Qle_bool _ _) eqn:Q; [|reflexivity]. apply Qle_bool_iff in Q. unfold Qle, inject_Z in Q. cbn in Q. lia.
  Qed.

  (** The degree of the rule chosen for a simplex; [None]: infinite *)
  Definition pn_degree (d n : nat) : option nat :=
    match d with
    | 0%nat => None
    | 1%nat => Some (2 * n + 1)%nat
    | _ => match xg_quad table n d with Err _ => Some (2 * (n / 2) + 1)%nat | Ok _ => Some n end
    end.
  Definition pynum_of (o : option nat) : pynum := match o with None => NNpInf true | Some n => degree n end.
  Lemma pn_degree_ge d n : forall m, pn_degree d n = Some m -> (n <= m)%nat.
  Proof.
    intros m. unfold pn_degree. pose proof (Nat.div_mod n 2 ltac:(lia)). pose proof (Nat.mod_upper_bound n 2 ltac:(lia)).
    destruct d as [|[|d]]; [discriminate| |destruct (xg_quad table n _)]; intros E; (match type of E with Some ?x = _ => assert (m = x) as -> by congruence end); lia.
  Qed.
  Lemma is_int_1 f v : is_int (Simplex 1) f v <-> is_RInt (fun t => f [t]) (-1) 1 v.
  Proof.
    cbn [is_int is_int_simplex]. split.
    - intros (g & H1 & H2). replace (-1 + 2) with 1 in H2 by ring. eapply is_RInt_ext; [|exact H2]. intros t Ht.
      rewrite Rmin_left, Rmax_right in Ht by lra. rewrite <- H1 by lra. reflexivity.
    - intros H. exists (fun t => f [t]). split; [reflexivity|]. now replace (-1 + 2) with 1 by ring.
  Qed.
  Lemma legendre_rule n be force : eigh_at eigh 0 0 n -> builtin be -> exists q, legendre_gauss eigh rj n be force = Ok q
    /\ wf_quad q /\ q_dim q = 1%nat /\ exact_to q = Ok (degree (2 * n + 1)) /\ integrates q (Simplex 1) (2 * n + 1).
  Proof.
    intros HE HB. destruct (C37_special_cases eigh rj n be force) as (_ & _ & _ & _ & GP & _).
    destruct (C37_rule 0 0 n eigh rj be force GP (fun _ => HE) HB) as (q & Eq & L1 & _ & I1 & L2 & _ & X & D & _).
    exists q. split; [exact Eq|]. split; [|split; [easy|split; [easy|]]].
    - split; [|congruence]. apply Forall_forall. intros p Hp. destruct (I1 p Hp) as (x & -> & _). now rewrite D.
    - intros phi Hp. change 0 with (INR 0) in Eq, HE. destruct (C37_exact 0 0 n eigh rj be force q phi HE HB Eq Hp) as (v & Hv & Hq).
      exists v. split; [|exact Hq]. apply is_int_1. eapply is_RInt_ext; [|exact Hv]. intros x _. cbv beta. cbn [pow]. req. ring.
  Qed.
  Lemma pn_chosen d n : table_ok -> (d = 1%nat -> eigh_at eigh 0 0 n) ->
    exists q, quadrature_for_pn eigh rj table d n (Simplex d) = Ok q /\ wf_quad q /\ q_dim q = d /\ exact_to q = Ok (pynum_of (pn_degree d n))
      /\ (table_exact -> integrates q (Simplex d) n)
      /\ ((2 <= d)%nat -> quadrature_for_pn eigh rj table d n (Simplex d) = match xg_quad table n d with Err _ => gm_quad (n / 2) d | r => r end).
  Proof.
    intros HT HE. unfold quadrature_for_pn. rewrite Nat.eqb_refl. cbn [negb].
    pose proof (pn_degree_ge d n) as Hge.
    assert (AD : forall q, exact_to q = Ok (pynum_of (pn_degree d n)) -> assert_degree q (Ok n) = Ok tt).
    { intros q E. unfold assert_degree. rewrite E. cbn [bind]. destruct (pn_degree d n) as [m|]; cbn [pynum_of].
      - rewrite degree_ge. cbn [bind]. specialize (Hge m eq_refl). apply Nat.leb_le in Hge. now rewrite Hge.
      - reflexivity. }
    destruct d as [|[|d]].
    - exists zero_dim_quad. cbn [bind]. rewrite AD by reflexivity. cbn [bind]. split; [reflexivity|]. split; [apply zero_dim_wf|]. split; [reflexivity|]. split; [reflexivity|].
      split; [|lia]. intros _ phi Hp. exists (phi []). split; [reflexivity|]. rewrite (q_call_rule _ _ phi zero_dim_wf) by reflexivity. now rewrite rule_zero_dim.
    - destruct (legendre_rule n None true (HE eq_refl) (or_introl eq_refl)) as (q & Eq & W & D & X & I). exists q. rewrite Eq. cbn [bind].
      rewrite AD by (rewrite X; reflexivity). cbn [bind]. split; [reflexivity|]. split; [easy|]. split; [easy|]. split; [rewrite X; reflexivity|]. split; [|lia].
      intros _ phi Hp. apply I. eapply is_poly_weaken; [|exact Hp]. lia.
    - destruct (xg_defined n (S (S d)) HT) as [(q & Eq)|Eq].
      + destruct (xg_inv n _ q Eq HT) as (_ & W & D & X). exists q. rewrite Eq. cbn [bind].
        assert (P : pn_degree (S (S d)) n = Some n) by (unfold pn_degree; now rewrite Eq). rewrite P in *.
        rewrite AD by exact X. cbn [bind]. split; [reflexivity|]. split; [easy|]. split; [easy|]. split; [easy|]. split; [|reflexivity].
        intros TE. now apply TE.
      + rewrite Eq. cbn [bind]. assert (P : pn_degree (S (S d)) n = Some (2 * (n / 2) + 1)%nat) by (unfold pn_degree; now rewrite Eq). rewrite P in *.
        destruct (C35_defined (n / 2) (S (S d))) as (q & Eg). exists q. rewrite Eg. cbn [bind].
        pose proof (C35_exact_to _ _ _ Eg ltac:(lia)) as X. rewrite AD by exact X. cbn [bind]. split; [reflexivity|].
        destruct (C35_nodes _ _ _ Eg) as [L N].
        assert (D : q_dim q = S (S d)). { destruct (gm_quad_pos (n / 2) (S (S d)) ltac:(lia)) as (dict & _ & _ & E'). rewrite Eg in E'. injection E' as ->. reflexivity. }
        split; [split; [|easy]; apply Forall_forall; intros x Hx; destruct (N x Hx) as [Lx _]; congruence|]. split; [easy|]. split; [easy|]. split; [|reflexivity].
        intros _ phi Hp. apply (C35_exact (n / 2) (S (S d)) q phi (fun x => Ok (phi x)) Eg); [|reflexivity].
        eapply is_poly_weaken; [|exact Hp]. pose proof (Nat.div_mod n 2 ltac:(lia)). pose proof (Nat.mod_upper_bound n 2 ltac:(lia)). lia.
  Qed.
End Choose.
