(** * C73: quadrature_for_space with the rules that are shipped *)
From Coquelicot Require Import Coquelicot.
From Coq Require Import List Arith Bool ZArith Reals Lra Lia Factorial.
From Verif Require Import Py ModelShapes ModelSpaces ModelQuad ModelGM ModelGauss ModelTools ModelQuadSpace ModelTables ModelDataXG.
From Verif Require Import RSum EnumFacts SpecIndex SpecGeometry SpecPoly SpecIntegral ProofNodeTuples ProofDirichlet ProofGM ProofQuad PropsQuad ProofBasisIndex ProofGauss ProofGauss3
  ProofUnisolvent ProofQuadSpace PropsQuadSpace ProofTables ProofTables4 ProofTables5 PropsTables ProofTableSpace.
Import ListNotations.
Local Open Scope R_scope.

(** The volume of a shape. *)
Theorem C73_volume sh : sh_ok sh -> is_int sh (fun _ => 1) (volume sh).
Proof.
  induction sh as [d|c n bs IH] using shape_ind'; intros HS.
  - pose proof (dirichlet_ref d (repeat 0%nat d) (repeat_length _ _)) as D. cbn [volume].
    assert (T0 : total (repeat 0%nat d) = 0%nat) by (clear; induction d; [reflexivity|]; unfold total in *; cbn [repeat fold_right]; lia).
    assert (P0 : prodfact (repeat 0%nat d) = 1).
    { clear. induction d as [|d IH]; [reflexivity|]. cbn [repeat]. rewrite prodfact_cons, IH. cbn. ring. }
    rewrite T0, P0 in D. cbn [Nat.add] in D. replace (2 ^ d / INR (fact d)) with (2 ^ d * (1 / INR (fact d))) by (field; apply INR_fact_neq_0).
    eapply is_int_ext; [|exact D]. intros x _. cbv beta. apply monoval_repeat0.
  - inversion HS as [|? ? FS]; subst. apply is_int_TP. cbn [volume]. clear HS. induction IH as [|b bs Hb _ IHs]; [reflexivity|]. inversion FS; subst. cbn [fold_right].
    apply is_ints_cons with (f := fun _ => 1) (g := fun _ => 1); [now apply Hb|now apply IHs|]. intros; ring.
Qed.

(** One simplex: there is a rule for every order, it is exact to the order up to 5/10^14 times the
    sum of the moduli of the coefficients, and exact where no table is involved. *)
Theorem C73_simplex eigh rj d n : (d = 1%nat -> eigh_at eigh 0 0 n) ->
  exists q e, quadrature_for_space eigh rj xg (PN d n) (Simplex d) = Ok q /\ q_dim q = d /\ exact_to q = Ok e /\ py_ge e (degree n) = Ok true
    /\ integrates_within q (Simplex d) n (5 / 10 ^ 14)
    /\ (~ xg_available n d -> integrates q (Simplex d) n)
    /\ (xg_available n d -> exact_to q = Ok (degree n) /\ Forall (fun w => 0 < w) (q_weights q) /\ Forall (in_shape (Simplex d)) (q_nodes q)).
Proof.
  intros HE. destruct (C34_pn eigh rj xg d n xg_ok HE) as (q & x & Eq & D & X & G). exists q, x.
  split; [exact Eq|]. split; [exact D|]. split; [exact X|]. split; [exact G|].
  destruct (pn_chosen eigh rj xg d n xg_ok HE) as (q' & Eq' & W & _ & _ & _ & C). cbn [quadrature_for_space] in Eq. assert (q' = q) by congruence. subst q'. split; [|split].
  - apply (within_of_moments q (Simplex d) n _ (fun e => 2 ^ d * (prodfact e / INR (fact (total e + d)))) W); cbn [shape_dim]; [exact (dirichlet_ref d)|].
    intros e L T. destruct (pn_close eigh rj d n q e HE Eq L T) as (_ & _ & v & I & _ & B).
    rewrite <- (is_int_unique _ _ _ _ I (dirichlet_ref d e L)). eapply Rle_trans; [exact B|]. cbn [enlarged volume]. unfold table_eps. destruct (_ || _); lra.
  - intros A. destruct (le_lt_dec 2 d) as [H2|H2].
    + destruct (C34_pn_fallback eigh rj (fun _ _ => None) d n) as (F1 & q' & F2 & F3); [intros ? ? ? ? _ E; discriminate|exact H2|now right|].
      destruct (C72_xiao_gimbutas n d) as (_ & X2). specialize (C H2). rewrite (X2 A) in C. assert (q' = q) by congruence. now subst q'.
    + assert (EN : quadrature_for_pn eigh rj (fun _ _ => None) d n (Simplex d) = Ok q) by (rewrite <- Eq; destruct d as [|[|d]]; [reflexivity|reflexivity|lia]).
      apply (C34_pn_exact eigh rj (fun _ _ => None) d n q); [intros ? ? ? ? _ E; discriminate| |exact HE|exact EN].
      intros d' n' q' E. unfold xg_quad in E. destruct (negb _); discriminate.
  - intros A. destruct (C72_xiao_gimbutas n d) as (X1 & _). destruct (X1 A) as (q' & Ex & _ & _ & Xe & P & N & _).
    assert (H2 : (2 <= d)%nat) by (destruct A as (_ & [(-> & _)|(-> & _)]); lia). specialize (C H2). rewrite Ex in C. assert (q' = q) by congruence. now subst q'.
Qed.

(** All spaces: the chosen rule integrates the polynomials of the space over the shape up to the sum of
    the moduli of the coefficients times the difference of two products: that of the volumes of the
    simplices, and that of the volumes where those of triangles and tetrahedra are enlarged by 5/10^14. *)
Theorem C73_space eigh rj s sh q ts : (forall n, eigh_at eigh 0 0 n) -> fits s sh -> quadrature_for_space eigh rj xg s sh = Ok q ->
  Forall (fun t => space_exp s (snd t)) ts ->
  exists v r, is_int sh (fun x => polyval ts (map (fun t => (t + 1) / 2) x)) v /\ q_call q (fun x => Ok (polyval ts (map (fun t => (t + 1) / 2) x))) = Ok r
    /\ Rabs (r - v) <= (enlarged sh - volume sh) * fold_right (fun t s => Rabs (fst t) + s) 0 ts.
Proof.
  intros HE Hf E HT. destruct (choose_close eigh rj HE s sh q Hf E) as (W & _ & HC).
  assert (G : exists v, is_int sh (fun x => polyval ts (half x)) v /\ Rabs (rule q (fun x => polyval ts (half x)) - v) <= (enlarged sh - volume sh) * coef_sum ts).
  { induction HT as [|[c e] ts Ht HT (v & I & J)].
    - exists 0. split; [apply ProofQuadSpace.is_int_zero|]. unfold polyval, coef_sum. cbn [fold_right]. rewrite rule_zero, Rminus_0_r, Rabs_R0. lra.
    - cbn [snd] in Ht. destruct (HC e Ht) as (ve & Ie & _ & Be). exists (c * ve + v). split; [apply is_int_plus; [now apply is_int_scal|exact I]|].
      replace (rule q (fun x => polyval ((c, e) :: ts) (half x))) with (c * rule q (fun x => monoval e (half x)) + rule q (fun x => polyval ts (half x))).
      2:{ rewrite <- ProofTables.rule_scal, <- ProofTables.rule_plus. reflexivity. }
      change (coef_sum ((c, e) :: ts)) with (Rabs c + coef_sum ts).
      replace (c * rule q (fun x => monoval e (half x)) + rule q (fun x => polyval ts (half x)) - (c * ve + v))
        with (c * (rule q (fun x => monoval e (half x)) - ve) + (rule q (fun x => polyval ts (half x)) - v)) by ring.
      eapply Rle_trans; [apply Rabs_triang|]. rewrite Rabs_mult, Rmult_plus_distr_l. apply Rplus_le_compat; [|exact J].
      rewrite Rmult_comm. apply Rmult_le_compat_r; [apply Rabs_pos|exact Be]. }
  destruct G as (v & I & J). exists v, (rule q (fun x => polyval ts (half x))). split; [exact I|]. split; [|exact J]. now apply q_call_rule.
Qed.
(** These are all functions of the space. *)
Theorem C73_covers s F : ProofUnisolvent.in_space s F -> exists ts : list (R * list nat), Forall (fun t => space_exp s (snd t)) ts
  /\ forall x, length x = spatial_dim s -> F x = polyval ts (map (fun t => (t + 1) / 2) x).
Proof. apply space_half. Qed.
(** No error at all without triangles and tetrahedra. *)
Fixpoint no_tri_tet (s : shape) : Prop := match s with Simplex d => d <> 2%nat /\ d <> 3%nat | TPShape _ _ bs => fold_right (fun b P => no_tri_tet b /\ P) True bs end.
Theorem C73_exact_without_tables sh : no_tri_tet sh -> enlarged sh = volume sh.
Proof.
  induction sh as [d|c n bs IH] using shape_ind'; cbn [no_tri_tet enlarged volume].
  - intros (H2 & H3). apply Nat.eqb_neq in H2, H3. rewrite H2, H3. cbn [orb]. ring.
  - induction IH as [|b bs Hb _ IHs]; cbn [fold_right]; [reflexivity|]. intros (H1 & H2). now rewrite Hb, IHs.
Qed.
(** Products of spaces of the same order always have a rule. *)
Theorem C73_defined eigh rj c c' ds n : eigh_at eigh 0 0 n ->
  exists q, quadrature_for_space eigh rj xg (pns_space c (map (fun d => (d, n)) ds)) (pns_shape c' (map (fun d => (d, n)) ds)) = Ok q.
Proof. apply C34_tp_isotropic. exact xg_ok. Qed.

(** Prisms: order 7 on triangle x interval; the error bound is 10^-13. *)
Example C73_example_prism : exists eigh, (forall n, eigh_at eigh 0 0 n) /\ forall rj, exists q sh s,
  quadrature_for_space eigh rj xg s sh = Ok q /\ fits s sh /\ sh = TPShape CTensorProduct 3 [Simplex 2; Simplex 1] /\ s = TPSpace SQN [PN 2 7; PN 1 7]
  /\ space_exp s [3; 4; 7]%nat /\ volume sh = 4 /\ enlarged sh - volume sh = 1 / 10 ^ 13.
Proof.
  destruct eigh_all as (eigh & HE). exists eigh. split; [exact HE|]. intros rj.
  destruct (C73_defined eigh rj SQN CTensorProduct [2; 1]%nat 7 (HE 7%nat)) as (q & Eq). exists q, (TPShape CTensorProduct 3 [Simplex 2; Simplex 1]), (TPSpace SQN [PN 2 7; PN 1 7]).
  split; [exact Eq|]. split; [|split; [reflexivity|split; [reflexivity|split; [|split]]]].
  - refine (fits_tp SQN CTensorProduct [PN 2 7; PN 1 7] [Simplex 2; Simplex 1] _). repeat constructor.
  - apply (se_tp SQN [PN 2 7; PN 1 7] [[3; 4]; [7]]%nat). repeat constructor; unfold total; cbn; lia.
  - cbn. field.
  - cbn [enlarged volume fold_right Nat.eqb orb]. unfold table_eps. cbn. field.
Qed.

Print Assumptions C73_volume.
Print Assumptions C73_simplex.
Print Assumptions C73_space.
Print Assumptions C73_covers.
Print Assumptions C73_exact_without_tables.
Print Assumptions C73_defined.
