(** * C34: quadrature_for_space *)
From Coquelicot Require Import Coquelicot.
From Coq Require Import List Arith Bool ZArith QArith Reals Lra Lia.
From Coq Require ClassicalEpsilon.
From Verif Require Import Py PyToolsModel ModelNd ModelShapes ModelSpaces ModelNodes ModelModes ModelQuad ModelGM ModelGauss ModelLinAlg ModelTools ModelQuadSpace.
From Verif Require Import RSum EnumFacts IntFacts SpecIndex SpecGeometry SpecPoly SpecIntegral ProofNodeTuples ProofDirichlet
  ProofGM ProofQuad PropsGM PropsQuad ProofBasisIndex ProofGauss ProofGauss3 PropsGauss PropsLobatto ProofShapes ProofQuadSpace PropsTools.
Import ListNotations.
Local Open Scope R_scope.

(** PN spaces: for every order, dimension and table of rules there is a rule, and its advertised
    degree reaches the order. *)
Theorem C34_pn eigh rj table d n : table_ok table -> (d = 1%nat -> eigh_at eigh 0 0 n) ->
  exists q e, quadrature_for_space eigh rj table (PN d n) (Simplex d) = Ok q /\ q_dim q = d
    /\ exact_to q = Ok e /\ py_ge e (degree n) = Ok true.
Proof.
  intros HT HE. destruct (pn_chosen eigh rj table d n HT HE) as (q & Eq & _ & D & X & _). exists q, (pynum_of (pn_degree table d n)).
  split; [exact Eq|]. split; [easy|]. split; [easy|]. pose proof (pn_degree_ge table d n) as G. destruct (pn_degree table d n) as [m|]; [|reflexivity].
  cbn [pynum_of]. rewrite degree_ge. f_equal. apply Nat.leb_le. now apply G.
Qed.
(** It does integrate all polynomials of that degree over the simplex, provided the tabulated rules do. *)
Theorem C34_pn_exact eigh rj table d n q : table_ok table -> table_exact table -> (d = 1%nat -> eigh_at eigh 0 0 n) ->
  quadrature_for_space eigh rj table (PN d n) (Simplex d) = Ok q -> integrates q (Simplex d) n.
Proof.
  intros HT TE HE E. destruct (pn_chosen eigh rj table d n HT HE) as (q' & Eq & _ & _ & _ & I & _).
  assert (q = q') as -> by (cbn [quadrature_for_space] in E; congruence). now apply I.
Qed.
(** Without a tabulated rule the fallback is the Grundmann-Moeller rule of order [n // 2], and
    nothing needs to be assumed. *)
Theorem C34_pn_fallback eigh rj table d n : table_ok table -> (2 <= d)%nat -> (4 <= d)%nat \/ table d n = None ->
  quadrature_for_space eigh rj table (PN d n) (Simplex d) = gm_quad (n / 2) d
  /\ exists q, gm_quad (n / 2) d = Ok q /\ integrates q (Simplex d) n.
Proof.
  intros HT Hd HN.
  assert (X : xg_quad table n d = Err RuleUnavailable).
  { unfold xg_quad. destruct HN as [H4|HN]; [|rewrite HN; now destruct (negb _)]. destruct d as [|[|[|[|d]]]]; try lia. reflexivity. }
  destruct (pn_chosen eigh rj table d n HT ltac:(lia)) as (q & Eq & _ & _ & _ & _ & C). specialize (C Hd). rewrite X in C.
  split; [exact C|]. destruct (C35_defined (n / 2) d) as (q' & E'). exists q'. split; [exact E'|].
  intros phi Hp. apply (C35_exact (n / 2) d q' phi (fun x => Ok (phi x)) E'); [|reflexivity].
  eapply is_poly_weaken; [|exact Hp]. pose proof (Nat.div_mod n 2 ltac:(lia)). pose proof (Nat.mod_upper_bound n 2 ltac:(lia)). lia.
Qed.
Theorem C34_pn_mismatch eigh rj table d n :
  (forall d', d <> d' -> quadrature_for_space eigh rj table (PN d n) (Simplex d') = Err ValueError)
  /\ (forall c m bs, quadrature_for_space eigh rj table (PN d n) (TPShape c m bs) = Err NotImplementedE).
Proof. split; [|reflexivity]. intros d' H. cbn. now rewrite (proj2 (Nat.eqb_neq d d') H). Qed.
Theorem C34_tp_mismatch eigh rj table c bs c' m shs : sum_nat (map spatial_dim bs) <> m ->
  quadrature_for_space eigh rj table (TPSpace c bs) (TPShape c' m shs) = Err ValueError.
Proof. intros H. cbn [quadrature_for_space spatial_dim]. now rewrite (proj2 (Nat.eqb_neq _ _) H). Qed.
(** The message of the NotImplementedError for a tensor-product space on a shape of another kind is
    built with [type(shape).__name]: the caller sees an AttributeError. *)
Theorem C34_not_implemented_refuted eigh rj table c bs d :
  quadrature_for_space eigh rj table (TPSpace c bs) (Simplex d) = Err AttributeError
  /\ quadrature_for_space eigh rj table (TPSpace c bs) (Simplex d) <> Err NotImplementedE.
Proof. split; [reflexivity|]. cbn. discriminate. Qed.

(** Tensor-product spaces: a rule that is returned has a degree, and it reaches the order of every factor that has one. *)
Theorem C34_tp eigh rj table c bs sh q : quadrature_for_space eigh rj table (TPSpace c bs) sh = Ok q ->
  bs <> [] ->
  exists e, exact_to q = Ok e /\ forall b n, In b bs -> space_order b = Ok n -> py_ge e (degree n) = Ok true.
Proof.
  cbn [quadrature_for_space]. destruct sh as [|c' m shs]; [discriminate|]. destruct (negb _); [discriminate|].
  match goal with |- bind ?q0 _ = _ -> _ => destruct q0 as [q'|]; [|discriminate] end. cbn [bind].
  destruct (assert_degrees q' bs) as [[]|] eqn:A; [|discriminate]. cbn [bind]. intros E Hne. assert (q' = q) as -> by congruence. clear E.
  assert (X : exists e, exact_to q = Ok e).
  { destruct bs as [|b bs]; [easy|]. cbn [assert_degrees] in A. unfold assert_degree in A. destruct (exact_to q) as [e|]; [now exists e|discriminate]. }
  destruct X as (e & X). exists e. split; [exact X|]. clear Hne. induction bs as [|b bs IH]; [easy|]. cbn [assert_degrees] in A.
  unfold assert_degree at 1 in A. rewrite X in A. cbn [bind] in A. destruct (order_or_0 b) as [n0|] eqn:O; [|discriminate]. cbn [bind] in A.
  destruct (py_ge e (degree n0)) as [g|] eqn:G; [|discriminate]. cbn [bind] in A. destruct g; [|discriminate]. cbn [bind] in A.
  intros b' n [<-|Hb] Hn; [|now apply (IH A b')]. unfold order_or_0 in O. rewrite Hn in O. congruence.
Qed.

Lemma choose_exact eigh rj table : table_ok table -> table_exact table -> (forall n, eigh_at eigh 0 0 n) ->
  forall s sh q, fits s sh -> quadrature_for_space eigh rj table s sh = Ok q ->
  wf_quad q /\ q_dim q = shape_dim sh /\ exact_for sh q (in_space s).
Proof.
  intros HT TE HE. induction s as [d n|c bs IH] using fspace_ind'; intros sh q Hf E.
  - inversion Hf; subst. destruct (pn_chosen eigh rj table d n HT (fun _ => HE n)) as (q' & Eq & W & D & _ & I & _).
    assert (q = q') as -> by (cbn [quadrature_for_space] in E; congruence). split; [easy|]. split; [easy|].
    specialize (I TE). apply integrates_exact_on in I; [|easy]. exact I.
  - pose proof (fits_ok _ _ Hf) as HS. pose proof (fits_dim _ _ Hf) as HD.
    inversion Hf as [|? c' ? shs F2]; subst. cbn [quadrature_for_space] in E. cbn [shape_dim] in HD.
    rewrite HD, Nat.eqb_refl in E. cbn [negb] in E. change (total (map shape_dim shs)) with (sum_nat (map shape_dim shs)) in *.
    destruct (sum_nat (map shape_dim shs) =? 0)%nat eqn:Z.
    + cbn [bind] in E. destruct (assert_degrees _ _); [|discriminate]. cbn [bind] in E. assert (q = zero_dim_quad) as -> by congruence.
      apply Nat.eqb_eq in Z. split; [apply zero_dim_wf|]. split; [now cbn [shape_dim]|]. intros F _. rewrite rule_zero_dim. now apply is_int_dim0.
    + destruct (zipM _ bs shs) as [qs|] eqn:Zq; [|discriminate]. cbn [bind] in E. destruct (tp_quad qs) as [q'|] eqn:T; [|discriminate]. cbn [bind] in E.
      destruct (assert_degrees _ _); [|discriminate]. cbn [bind] in E. assert (q = q') as -> by congruence. clear E Z.
      assert (H : Forall wf_quad qs /\ Forall2 (fun a b => sh_ok b /\ q_dim a = shape_dim b) qs shs
          /\ Forall2 (fun ab P => exact_for (snd ab) (fst ab) (snd P) /\ fst P = shape_dim (snd ab)) (combine qs shs) (map (fun b => (spatial_dim b, in_space b)) bs)).
      { clear T HS HD Hf. revert qs Zq. induction F2 as [|b s bs shs Hb F2 IHs]; intros qs Zq; cbn [zipM] in Zq.
        - injection Zq as <-. repeat split; constructor.
        - inversion IH as [|? ? IH1 IH2]; subst. destruct (quadrature_for_space eigh rj table b s) as [qa|] eqn:Ea; [|discriminate]. cbn [bind] in Zq.
          destruct (zipM _ bs shs) as [qs'|]; [|discriminate]. cbn [bind] in Zq. assert (qs = qa :: qs') as -> by congruence.
          destruct (IHs IH2 qs' eq_refl) as (G1 & G2 & G3). destruct (IH1 s qa Hb Ea) as (K1 & K2 & K3).
          split; [now constructor|]. split; [constructor; [split; [now apply (fits_ok b)|easy]|easy]|]. cbn [combine map]. constructor; [|easy].
          cbn [fst snd]. split; [easy|]. now apply fits_dim. }
      destruct H as (W & H2 & H3). pose proof (tp_quad_wf qs q' W T) as Wq. split; [easy|].
      destruct (tp_quad_inv qs q' W T) as (Dq & _).
      assert (DD : q_dim q' = sum_nat (map shape_dim shs)).
      { rewrite Dq. clear -H2. induction H2 as [|a b qs shs [_ H] _ IH]; [reflexivity|]. unfold sum_nat in *. cbn [map fold_right]. lia. }
      split; [easy|]. cbn [in_space].
      assert (SD : sum_nat (map spatial_dim bs) = sum_nat (map shape_dim shs)) by (cbn [spatial_dim] in HD; exact HD). rewrite SD.
      apply (exact_for_span (TPShape c' (sum_nat (map shape_dim shs)) shs)); [easy|easy|easy|].
      apply (exact_for_prod qs shs q' c' _ W T H2 H3).
Qed.
(** The rule integrates every function of the space over the matching shape. *)
Theorem C34_exact eigh rj table s sh q F : table_ok table -> table_exact table -> (forall n, eigh_at eigh 0 0 n) ->
  fits s sh -> quadrature_for_space eigh rj table s sh = Ok q -> in_space s F ->
  exists v, is_int sh F v /\ q_call q (fun x => Ok (F x)) = Ok v.
Proof.
  intros HT TE HE Hf E HF. destruct (choose_exact eigh rj table HT TE HE s sh q Hf E) as (W & _ & X).
  exists (rule q F). split; [now apply X|]. now apply q_call_rule.
Qed.

(** When is there a rule?  A product of PN spaces is served exactly if the degree of the
    rule chosen for every factor reaches the order of every factor. *)
Definition pns_space (c : spcls) (pns : list (nat * nat)) : fspace := TPSpace c (map (fun p => PN (fst p) (snd p)) pns).
Definition pns_shape (c : tpcls) (pns : list (nat * nat)) : shape := TPShape c (sum_nat (map fst pns)) (map (fun p => Simplex (fst p)) pns).
(** degree of the rule of the [d]-simplex for order [n]: infinite, 2n+1, n, or 2 (n//2) + 1 *)
Definition reaches (table : xg_table) (d n m : nat) : Prop := match pn_degree table d n with None => True | Some k => (m <= k)%nat end.

Lemma choice_core eigh rj table c c' pns : table_ok table -> (forall n, In (1%nat, n) pns -> eigh_at eigh 0 0 n) ->
  (0 < sum_nat (map fst pns))%nat ->
  exists q, quadrature_for_space eigh rj table (pns_space c pns) (pns_shape c' pns)
    = (let* _ := assert_degrees q (map (fun p => PN (fst p) (snd p)) pns) in Ok q)
  /\ exists p0, In p0 pns /\ exact_to q = Ok (pynum_of (pn_degree table (fst p0) (snd p0)))
      /\ forall p, In p pns -> py_le (pynum_of (pn_degree table (fst p0) (snd p0))) (pynum_of (pn_degree table (fst p) (snd p))) = Ok true.
Proof.
  intros HT HE HD. unfold pns_space, pns_shape. cbn [quadrature_for_space spatial_dim]. rewrite map_map. cbn [spatial_dim].
  assert (DE : map (fun x : nat * nat => spatial_dim (PN (fst x) (snd x))) pns = map fst pns) by (apply map_ext; reflexivity).
  change (map (fun x : nat * nat => fst x) pns) with (map fst pns).
  rewrite Nat.eqb_refl. cbn [negb]. assert (Z : (sum_nat (map fst pns) =? 0)%nat = false) by (apply Nat.eqb_neq; lia). rewrite Z.
  assert (H : exists qs, zipM (fun s b => quadrature_for_space eigh rj table s b) (map (fun p => PN (fst p) (snd p)) pns) (map (fun p => Simplex (fst p)) pns) = Ok qs
     /\ Forall2 (fun a p => wf_quad a /\ q_dim a = fst p /\ exact_to a = Ok (pynum_of (pn_degree table (fst p) (snd p)))) qs pns).
  { clear HD Z DE. induction pns as [|p pns IH]; [exists []; split; [reflexivity|constructor]|].
    destruct IH as (qs & E & F); [intros; apply HE; now right|]. cbn [map zipM].
    destruct (pn_chosen eigh rj table (fst p) (snd p) HT) as (a & Ea & W & D & X & _).
    { intros Hp. apply HE. left. destruct p; cbn in *; congruence. }
    cbn [quadrature_for_space]. rewrite Ea. cbn [bind]. rewrite E. cbn [bind]. exists (a :: qs). split; [reflexivity|]. constructor; easy. }
  destruct H as (qs & E & F). rewrite E. cbn [bind].
  assert (W : Forall wf_quad qs) by (clear -F; induction F as [|? ? ? ? [H _]]; constructor; easy).
  assert (DQ : map q_dim qs = map fst pns) by (clear -F; induction F as [|? ? ? ? (_ & H & _) _ IH]; [reflexivity|]; cbn [map]; congruence).
  assert (XQ : Forall2 (fun a d => exact_to a = Ok d) qs (map (fun p => pynum_of (pn_degree table (fst p) (snd p))) pns)).
  { clear -F. induction F as [|? ? ? ? (_ & _ & H)]; constructor; easy. }
  assert (NN : forall o, pynum_of o <> NInf /\ pynum_of o <> NNpInf false) by (intros [m|]; split; discriminate).
  destruct (tp_quad_defined qs W) as (q & Eq).
  - now rewrite DQ.
  - intros a Ha. clear -F Ha NN. induction F as [|? ? ? ? (_ & _ & H)]; [easy|]. destruct Ha as [<-|Ha]; [|now apply IHF]. eexists. split; [exact H|]. apply NN.
  - exists q. rewrite Eq. cbn [bind]. split; [reflexivity|].
    destruct (C33_exact_to qs q W Eq) as (_ & X & _).
    destruct (X (map (fun p => pynum_of (pn_degree table (fst p) (snd p))) pns)) as (d & Xd & Id & Md); [| |exact XQ|].
    + intros ->. cbn in DQ. destruct pns; [cbn in HD; lia|discriminate].
    + right. apply Forall_forall. intros d Hd. apply in_map_iff in Hd. destruct Hd as (p & <- & _). apply NN.
    + apply in_map_iff in Id. destruct Id as (p0 & <- & Hp0). exists p0. split; [easy|]. split; [easy|].
      intros p Hp. apply Md. apply in_map_iff. now exists p.
Qed.
Theorem C34_tp_defined eigh rj table c c' pns : table_ok table -> (forall n, In (1%nat, n) pns -> eigh_at eigh 0 0 n) ->
  (forall p p', In p pns -> In p' pns -> reaches table (fst p) (snd p) (snd p')) ->
  exists q, quadrature_for_space eigh rj table (pns_space c pns) (pns_shape c' pns) = Ok q.
Proof.
  intros HT HE HR. destruct (Nat.eq_dec (sum_nat (map fst pns)) 0) as [Z|Z].
  - exists zero_dim_quad. unfold pns_space, pns_shape. cbn [quadrature_for_space spatial_dim]. rewrite map_map. cbn [spatial_dim].
    change (map (fun x : nat * nat => fst x) pns) with (map fst pns). rewrite Z. cbn [Nat.eqb negb bind].
    assert (A : assert_degrees zero_dim_quad (map (fun p => PN (fst p) (snd p)) pns) = Ok tt); [|now rewrite A].
    clear. induction pns as [|p pns IH]; [reflexivity|]. cbn [map assert_degrees]. unfold assert_degree. cbn. exact IH.
  - destruct (choice_core eigh rj table c c' pns HT HE ltac:(lia)) as (q & E & p0 & Hp0 & X & _). exists q. rewrite E.
    assert (A : assert_degrees q (map (fun p => PN (fst p) (snd p)) pns) = Ok tt); [|now rewrite A]. clear E.
    assert (HR0 : forall p', In p' pns -> reaches table (fst p0) (snd p0) (snd p')) by auto. clear HR HE Z Hp0.
    induction pns as [|p pns IH]; [reflexivity|]. cbn [map assert_degrees]. unfold assert_degree. rewrite X. cbn [bind].
    unfold order_or_0. cbn [space_order bind]. specialize (HR0 p (or_introl eq_refl)) as H. unfold reaches in H.
    destruct (pn_degree table (fst p0) (snd p0)) as [k|]; cbn [pynum_of].
    + rewrite degree_ge. apply Nat.leb_le in H. rewrite H. cbn [bind]. apply IH. intros; apply HR0; now right.
    + cbn [py_ge num_le num_lt num_eq degree refl bind negb orb]. apply IH. intros; apply HR0; now right.
Qed.
Theorem C34_tp_assertion eigh rj table c c' pns p p' : table_ok table -> (forall n, In (1%nat, n) pns -> eigh_at eigh 0 0 n) ->
  In p pns -> In p' pns -> ~ reaches table (fst p) (snd p) (snd p') ->
  quadrature_for_space eigh rj table (pns_space c pns) (pns_shape c' pns) = Err AssertionE.
Proof.
  intros HT HE Hp Hp' HR.
  assert (D : (0 < sum_nat (map fst pns))%nat).
  { destruct (Nat.eq_dec (fst p) 0) as [Z|Z].
    - exfalso. apply HR. unfold reaches. now rewrite Z.
    - clear -Hp Z. induction pns as [|a pns IH]; [easy|]. unfold sum_nat in *. cbn [map fold_right]. destruct Hp as [->|Hp]; [lia|]. specialize (IH Hp). lia. }
  destruct (choice_core eigh rj table c c' pns HT HE D) as (q & E & p0 & Hp0 & X & M). rewrite E. clear E. specialize (M p Hp).
  unfold reaches in HR. destruct (pn_degree table (fst p) (snd p)) as [k|]; [|now elim HR]. cbn [pynum_of] in M.
  destruct (pn_degree table (fst p0) (snd p0)) as [k0|]; cbn [pynum_of] in X, M; [|discriminate].
  assert (K : (k0 <= k)%nat).
  { unfold py_le, degree in M. rewrite num_le_fin in M. cbn [refl] in M. injection M as M. apply Qle_bool_iff in M. unfold Qle, inject_Z in M. cbn in M. lia. }
  assert (A : assert_degrees q (map (fun p => PN (fst p) (snd p)) pns) = Err AssertionE); [|now rewrite A].
  clear -X HR K Hp'. induction pns as [|a pns IH]; [easy|]. cbn [map assert_degrees]. unfold assert_degree. rewrite X. cbn [bind].
  unfold order_or_0. cbn [space_order bind]. rewrite degree_ge. cbn [bind].
  destruct (snd a <=? k0)%nat eqn:L; [|reflexivity]. cbn [bind]. destruct Hp' as [->|Hp']; [|now apply IH]. apply Nat.leb_le in L. lia.
Qed.
(** In particular there always is one if all factors have the same order. *)
Theorem C34_tp_isotropic eigh rj table c c' ds n : table_ok table -> eigh_at eigh 0 0 n ->
  exists q, quadrature_for_space eigh rj table (pns_space c (map (fun d => (d, n)) ds)) (pns_shape c' (map (fun d => (d, n)) ds)) = Ok q.
Proof.
  intros HT HE. apply C34_tp_defined; [easy| |].
  - intros m Hm. apply in_map_iff in Hm. destruct Hm as (d & Ed & _). congruence.
  - intros p p' Hp Hp'. apply in_map_iff in Hp, Hp'. destruct Hp as (d & <- & _), Hp' as (d' & <- & _). cbn [fst snd]. unfold reaches.
    pose proof (pn_degree_ge table d n) as G. destruct (pn_degree table d n) as [k|]; [|exact I]. now apply G.
Qed.
(** ... but not in general: the space P1 x P5 on the square ends in an AssertionError,
    because the rule for the first factor is exact to degree 3 only. *)
Theorem C34_anisotropic_refuted eigh rj table c c' : table_ok table -> eigh_at eigh 0 0 1 -> eigh_at eigh 0 0 5 ->
  quadrature_for_space eigh rj table (pns_space c [(1, 1); (1, 5)]%nat) (pns_shape c' [(1, 1); (1, 5)]%nat) = Err AssertionE
  /\ fits (pns_space c [(1, 1); (1, 5)]%nat) (pns_shape c' [(1, 1); (1, 5)]%nat).
Proof.
  intros HT H1 H5. split.
  - apply (C34_tp_assertion eigh rj table c c' _ (1, 1)%nat (1, 5)%nat HT).
    + intros n [E|[E|[]]]; injection E as <-; easy.
    + now left.
    + right. now left.
    + unfold reaches. cbn. lia.
  - refine (fits_tp c c' [PN 1 1; PN 1 5] [Simplex 1; Simplex 1] _). repeat constructor.
Qed.

(** Tensor products of Legendre-Gauss and of Legendre-Gauss-Lobatto rules on the d-cube: exact for
    products of polynomials of degree 2N+1 (2N-1) in each coordinate. *)
Lemma tp_repeat_exact q0 q d n : wf_quad q0 -> q_dim q0 = 1%nat -> integrates q0 (Simplex 1) n -> tp_quad (repeat q0 d) = Ok q ->
  wf_quad q /\ exact_for (TPShape CTensorProduct d (repeat (Simplex 1) d)) q (in_space (TPSpace SQN (repeat (PN 1 n) d))).
Proof.
  intros W D I E.
  assert (W' : Forall wf_quad (repeat q0 d)) by (apply Forall_forall; intros a Ha; apply repeat_spec in Ha; now subst).
  pose proof (tp_quad_wf _ _ W' E) as Wq. split; [easy|]. cbn [in_space].
  assert (S1 : sum_nat (map spatial_dim (repeat (PN 1 n) d)) = d) by (clear; induction d; [reflexivity|]; unfold sum_nat in *; cbn in *; lia).
  assert (S2 : sum_nat (map shape_dim (repeat (Simplex 1) d)) = d) by (clear; induction d; [reflexivity|]; unfold sum_nat in *; cbn in *; lia).
  assert (S3 : sum_nat (map q_dim (repeat q0 d)) = d) by (clear -D; induction d; [reflexivity|]; unfold sum_nat in *; cbn; rewrite D, IHd; reflexivity).
  rewrite S1. destruct (tp_quad_inv _ _ W' E) as (Dq & _).
  apply (exact_for_span (TPShape CTensorProduct d (repeat (Simplex 1) d))).
  - assert (HS : sh_ok (TPShape CTensorProduct (sum_nat (map shape_dim (repeat (Simplex 1) d))) (repeat (Simplex 1) d))).
    { constructor. apply Forall_forall. intros a Ha. apply repeat_spec in Ha. subst. constructor. }
    now rewrite S2 in HS.
  - easy.
  - cbn [shape_dim]. congruence.
  - pose proof (exact_for_prod (repeat q0 d) (repeat (Simplex 1) d) q CTensorProduct (map (fun b => (spatial_dim b, in_space b)) (repeat (PN 1 n) d)) W' E) as P.
    rewrite S2 in P. apply P.
    + clear -D. induction d; [constructor|]. cbn [repeat]. constructor; [split; [constructor|easy]|easy].
    + clear -I W. induction d; [constructor|]. cbn [repeat combine map]. constructor; [|easy]. cbn [fst snd spatial_dim in_space shape_dim]. split; [|reflexivity].
      apply integrates_exact_on in I; [|easy]. exact I.
Qed.
Lemma tp_repeat_defined q0 d r : wf_quad q0 -> q_dim q0 = 1%nat -> exact_to q0 = Ok (NFin r) -> exists q, tp_quad (repeat q0 d) = Ok q.
Proof.
  intros W D X. apply C33_defined.
  - apply Forall_forall. intros a Ha. apply repeat_spec in Ha. now subst.
  - intros a Ha. apply repeat_spec in Ha. subst. split; [lia|]. now exists r.
Qed.
Theorem C34_legendre_gauss_tp eigh rj N d be : eigh_at eigh 0 0 N -> builtin be ->
  exists q, legendre_gauss_tp eigh rj N d be = Ok q
    /\ forall F, in_space (TPSpace SQN (repeat (PN 1 (2 * N + 1)) d)) F ->
       exists v, is_int (TPShape CTensorProduct d (repeat (Simplex 1) d)) F v /\ q_call q (fun x => Ok (F x)) = Ok v.
Proof.
  intros HE HB. destruct (legendre_rule eigh rj N be true HE HB) as (q0 & E0 & W & D & X & I).
  destruct (tp_repeat_defined q0 d _ W D X) as (q & E). exists q. unfold legendre_gauss_tp. rewrite E0. cbn [bind]. split; [exact E|].
  intros F HF. destruct (tp_repeat_exact q0 q d _ W D I E) as [Wq EX]. exists (rule q F). split; [now apply EX|now apply q_call_rule].
Qed.
Theorem C34_legendre_gauss_lobatto_tp eigh rj N d be : (1 <= N)%nat -> lobatto_eigh eigh 0 0 N -> builtin be ->
  exists q, legendre_gauss_lobatto_tp eigh rj N d be = Ok q
    /\ forall F, in_space (TPSpace SQN (repeat (PN 1 (2 * N - 1)) d)) F ->
       exists v, is_int (TPShape CTensorProduct d (repeat (Simplex 1) d)) F v /\ q_call q (fun x => Ok (F x)) = Ok v.
Proof.
  intros HN HE HB. destruct (C38_legendre_rule N eigh rj be true HN HE HB) as (q0 & mid & E0 & Q1 & Q2 & _ & Q3 & Q4 & _ & X & D & _).
  assert (W : wf_quad q0).
  { split.
    - rewrite Q1, D. constructor; [reflexivity|]. apply Forall_app. split; [|constructor; [reflexivity|constructor]].
      apply Forall_forall. intros p Hp. destruct (Q2 p Hp) as (x & -> & _). reflexivity.
    - rewrite Q1, Q4. cbn [length]. rewrite app_length. cbn [length]. lia. }
  assert (I : integrates q0 (Simplex 1) (2 * N - 1)).
  { intros phi Hp. destruct (C38_legendre_exact N eigh rj be true q0 phi HE HB E0 Hp) as (v & Hv & Hq). exists v. split; [now apply is_int_1|easy]. }
  destruct (tp_repeat_defined q0 d _ W D X) as (q & E). exists q. unfold legendre_gauss_lobatto_tp. rewrite E0. cbn [bind]. split; [exact E|].
  intros F HF. destruct (tp_repeat_exact q0 q d _ W D I E) as [Wq EX]. exists (rule q F). split; [now apply EX|now apply q_call_rule].
Qed.

(** ** The hypotheses are met *)
(** An eigensolver that is right for all Legendre matrices exists. *)
Lemma eigh_all : exists eigh, forall n, eigh_at eigh 0 0 n.
Proof.
  assert (f : forall n, { d : (nat -> R) * (nat -> nat -> R) | eigdec (S n) (jg_matrix 0 0 n) (fst d) (snd d) }).
  { intros n. apply ClassicalEpsilon.constructive_indefinite_description.
    destruct (C37_decomposition_exists 0 0 ltac:(lra) ltac:(lra) ltac:(lra) n) as (eigh & H & _). eexists. exact H. }
  exists (fun m _ => proj1_sig (f (m - 1)%nat)). intros n. unfold eigh_at. replace (S n - 1)%nat with n by lia. exact (proj2_sig (f n)).
Qed.
(** A table holding the one-point rule of order 1 for the triangle. *)
Definition centroid_table : xg_table := fun d n => if ((d =? 2) && (n =? 1))%nat then Some ([[0; 0]], [sqrt 3]) else None.
Lemma centroid_shape : xg_quad centroid_table 1 2 = Ok (mkQuad false 2 [[-1 / 3; -1 / 3]] [2] (Some (degree 1))).
Proof.
  unfold xg_quad. cbn [Nat.eqb orb negb centroid_table andb]. destruct C15_jacobians as (_ & m & _ & _ & Em & _ & _ & J & _). rewrite Em. cbn [bind].
  pose proof Em as Em'. injection Em' as <-. rewrite J.
  unfold mapM, am_call. cbn [am_a am_b nmat_of_rows ncols nrows length hd Nat.eqb negb bind seq map ent nth]. rewrite !rsum_S. cbn [rsum nth].
  assert (S3 : sqrt 3 <> 0) by (pose proof (sqrt_lt_R0 3 ltac:(lra)); lra).
  f_equal. f_equal.
  - f_equal. apply cons_eq; [field; easy|]. apply cons_eq; [field; easy|reflexivity].
  - f_equal. field. easy.
Qed.
Example C34_example_table : table_ok centroid_table /\ table_exact centroid_table /\ exists q, xg_quad centroid_table 1 2 = Ok q.
Proof.
  split; [|split].
  - intros d n pts wts _. unfold centroid_table. destruct (Nat.eqb_spec d 2) as [->|]; [|discriminate]. destruct (n =? 1)%nat; [|discriminate]. cbn [andb].
    intros E. injection E as <- <-. split; [repeat constructor|reflexivity].
  - intros d n q E.
    assert (DN : d = 2%nat /\ n = 1%nat).
    { revert E. unfold xg_quad. destruct (negb _) eqn:D; [discriminate|]. unfold centroid_table.
      destruct (Nat.eqb_spec d 2) as [->|]; [|discriminate]. destruct (Nat.eqb_spec n 1) as [->|]; [|discriminate]. easy. }
    destruct DN as [-> ->]. rewrite centroid_shape in E.
    match goal with H : Ok ?x = Ok q |- _ => assert (q = x) as -> by congruence end. clear E.
    match goal with |- integrates ?q _ _ => assert (W : wf_quad q) by (split; [repeat constructor|reflexivity]) end.
    apply integrates_exact_on; [exact W|].
    assert (I0 : is_int (Simplex 2) (fun _ => 1) 2).
    { pose proof (dirichlet_ref 2 [0; 0]%nat eq_refl) as H. unfold prodfact, total in H. cbn [map fold_right fact Nat.mul Nat.add] in H.
      replace (2 ^ 2 * (INR 1 / INR 2)) with 2 in H by (cbn; field). eapply is_int_ext; [|exact H]. intros x Hx. cbv beta.
      destruct Hx as (L & _). destruct x as [|a [|b [|]]]; try discriminate. cbn. ring. }
    assert (I1 : forall k, (k < 2)%nat -> is_int (Simplex 2) (fun x => nth k x 0) (- 2 / 3)).
    { intros k Hk. set (e := if (k =? 0)%nat then [1; 0]%nat else [0; 1]%nat).
      pose proof (dirichlet_ref 2 e ltac:(unfold e; now destruct (k =? 0)%nat)) as H.
      assert (V : 2 ^ 2 * (prodfact e / INR (fact (total e + 2))) = 2 / 3).
      { unfold e, prodfact, total. destruct (k =? 0)%nat; cbn [map fold_right fact Nat.mul Nat.add]; cbn; field. }
      rewrite V in H. pose proof (is_int_plus _ _ _ _ _ (is_int_scal _ 2 _ _ H) (is_int_scal _ (-1) _ _ I0)) as P.
      replace (2 * (2 / 3) + -1 * 2) with (- 2 / 3) in P by field. eapply is_int_ext; [|exact P]. intros x Hx. cbv beta.
      destruct Hx as (L & _). destruct x as [|a [|b [|]]]; try discriminate. unfold e. destruct k as [|[|k]]; [| |lia]; cbn; field. }
    apply exact_on_monomials; [exact W|reflexivity|intros x Hx; now destruct Hx|].
    intros e Le Te. destruct e as [|a [|b [|]]]; try discriminate. unfold total in Te. cbn [fold_right] in Te.
    unfold rule, dotR. cbn [q_weights q_nodes map combine fold_right fst snd].
    destruct a as [|[|a]]; destruct b as [|[|b]]; try lia.
    + replace (2 * monoval [0; 0]%nat [-1 / 3; -1 / 3] + 0) with 2 by (cbn; ring). eapply is_int_ext; [|exact I0]. intros x Hx. destruct Hx as (L & _). destruct x as [|a [|b [|]]]; try discriminate. cbn. ring.
    + replace (2 * monoval [0; 1]%nat [-1 / 3; -1 / 3] + 0) with (- 2 / 3) by (cbn; field). eapply is_int_ext; [|exact (I1 1%nat ltac:(lia))]. intros x Hx. destruct Hx as (L & _). destruct x as [|a [|b [|]]]; try discriminate. cbn. ring.
    + replace (2 * monoval [1; 0]%nat [-1 / 3; -1 / 3] + 0) with (- 2 / 3) by (cbn; field). eapply is_int_ext; [|exact (I1 0%nat ltac:(lia))]. intros x Hx. destruct Hx as (L & _). destruct x as [|a [|b [|]]]; try discriminate. cbn. ring.
  - eexists. apply centroid_shape.
Qed.
(** The prism P2 (triangle, not tabulated) x P3 (interval): fallback and Gauss rule, degree 3. *)
Example C34_example_prism : exists eigh, (forall n, eigh_at eigh 0 0 n)
  /\ (forall p p', In p [(2, 2); (1, 3)]%nat -> In p' [(2, 2); (1, 3)]%nat -> reaches centroid_table (fst p) (snd p) (snd p'))
  /\ in_space (pns_space STensorProduct [(2, 2); (1, 3)]%nat) (fun x => nth 0 x 0 * nth 1 x 0 * nth 2 x 0 ^ 3).
Proof.
  destruct eigh_all as (eigh & H). exists eigh. split; [exact H|]. split.
  - intros p p' [<-|[<-|[]]] [<-|[<-|[]]]; unfold reaches; cbn; lia.
  - cbn [pns_space map in_space]. apply span_gen. exists [fun x => nth 0 x 0 * nth 1 x 0; fun x => nth 0 x 0 ^ 3]. split.
    + cbn [fst snd]. constructor; [|constructor; [|constructor]]; cbn [snd in_space].
      * exists [(1, [1; 1]%nat)]. split; [repeat constructor|]. intros x Hx. destruct x as [|a [|b [|]]]; try discriminate. unfold polyval. cbn. ring.
      * exists [(1, [3]%nat)]. split; [repeat constructor|]. intros x Hx. destruct x as [|a [|]]; try discriminate. unfold polyval. cbn. ring.
    + intros xs Hxs. inversion Hxs as [|x ? xs' ? L1 Hxs']; subst. inversion Hxs' as [|y ? ? ? L2 H3]; subst. inversion H3; subst.
      cbn [fst spatial_dim] in L1, L2. destruct x as [|a [|b [|]]]; try discriminate. destruct y as [|e [|]]; try discriminate. cbn. ring.
Qed.

Print Assumptions C34_pn.
Print Assumptions C34_pn_exact.
Print Assumptions C34_pn_fallback.
Print Assumptions C34_pn_mismatch.
Print Assumptions C34_tp_mismatch.
Print Assumptions C34_not_implemented_refuted.
Print Assumptions C34_tp.
Print Assumptions C34_exact.
Print Assumptions C34_tp_defined.
Print Assumptions C34_tp_assertion.
Print Assumptions C34_tp_isotropic.
Print Assumptions C34_anisotropic_refuted.
Print Assumptions C34_legendre_gauss_tp.
Print Assumptions C34_legendre_gauss_lobatto_tp.
