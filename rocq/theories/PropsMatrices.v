(** * Properties C26-C30 of modepy/matrices.py *)
From Coquelicot Require Import Coquelicot.
From Coq Require Import List Arith Bool ZArith Reals Lra Lia Permutation.
From Verif Require Import Py PyToolsModel RSum RField ModelLinAlg ProofLinAlg ModelShapes ModelSpaces ModelModes ModelBasis ModelQuad
  ModelMatrices EnumFacts SpecIndex SpecIntegral SpecPoly SpecPartial SpecSpan ProofMonomial ProofBasisDeriv ProofTPOrtho
  ProofSpaces ProofBasisIndex ProofMatrices ProofMatrices2 ProofDiffPerm ProofMatrices3 ProofExchange PropsBasis.
Import ListNotations.
Local Open Scope R_scope.

(** ** C26: resampling *)
Theorem C26_exact fs new old ls : defined_on fs new -> defined_on fs old -> unisolvent fs old ->
  exists M, resampling_matrix fs new old ls = Ok M
    /\ nrows M = length new /\ ncols M = length old
    /\ forall c i, (i < length new)%nat ->
         rsum (fun k => ent M i k * lin fs c (pt old k)) (length old) = lin fs c (pt new i).
Proof.
  intros DN DO HU. destruct (resampling_succeeds fs new old ls DN DO HU) as (M & E). exists M.
  destruct (resampling_square fs new old ls M (proj1 HU) E) as (R1 & C1 & _ & _ & _ & H).
  split; [easy|]. split; [easy|]. split; [easy|]. intros c i Hi.
  rewrite (rsum_ext _ (fun k => ent M i k * rsum (fun j => V fs old k j * c j) (length fs))).
  2:{ intros k _. now rewrite lin_V. }
  rewrite (span_exact fs (ent M) (V fs old) (V fs new) c i (length fs) (length old)).
  - apply lin_V.
  - intros j Hj. now apply H.
Qed.

(** A successful square resampling implies that the old nodes were unisolvent. *)
Theorem C26_square_only fs new old ls M : length fs = length old -> resampling_matrix fs new old ls = Ok M ->
  unisolvent fs old /\ defined_on fs old /\ defined_on fs new.
Proof.
  intros L E. destruct (resampling_square fs new old ls M L E) as (_ & _ & DN & DO & I & _).
  unfold unisolvent. auto.
Qed.

Theorem C26_identity fs nodes ls : defined_on fs nodes -> unisolvent fs nodes ->
  exists M, resampling_matrix fs nodes nodes ls = Ok M /\ nrows M = length nodes /\ ncols M = length nodes
    /\ forall i j, (i < length nodes)%nat -> (j < length nodes)%nat -> ent M i j = if (i =? j)%nat then 1 else 0.
Proof.
  intros D HU. destruct (C26_exact fs nodes nodes ls D D HU) as (M & E & R1 & C1 & H). exists M.
  split; [easy|]. split; [easy|]. split; [easy|]. intros i j Hi Hj.
  destruct HU as [HL HI]. pose proof (proj1 (independent_inj fs nodes) HI) as N. rewrite HL in N.
  refine (agree_on_V (length nodes) (ent M i) (delta i) (V fs nodes) N _ j Hj).
  intros a Ha. rewrite (rsum_delta (fun k => V fs nodes k a) i) by easy.
  unfold V. rewrite (fn_lin fs a) by lia. rewrite <- (H (delta a) i Hi). apply rsum_ext. intros k _.
  now rewrite (fn_lin fs a) by lia.
Qed.

Theorem C26_composition fs new mid old ls : defined_on fs new -> defined_on fs mid -> defined_on fs old ->
  unisolvent fs old -> unisolvent fs mid ->
  exists M M1 M2, resampling_matrix fs new old ls = Ok M
    /\ resampling_matrix fs new mid ls = Ok M1 /\ resampling_matrix fs mid old ls = Ok M2
    /\ forall i j, (i < length new)%nat -> (j < length old)%nat ->
         rsum (fun k => ent M1 i k * ent M2 k j) (length mid) = ent M i j.
Proof.
  intros DN DM DO UO UM.
  destruct (C26_exact fs new old ls DN DO UO) as (M & E & _ & _ & H).
  destruct (C26_exact fs new mid ls DN DM UM) as (M1 & E1 & _ & _ & H1).
  destruct (C26_exact fs mid old ls DM DO UO) as (M2 & E2 & _ & _ & H2).
  exists M, M1, M2. split; [easy|]. split; [easy|]. split; [easy|]. intros i j Hi Hj.
  destruct UO as [HL HI]. pose proof (proj1 (independent_inj fs old) HI) as N. rewrite HL in N.
  refine (agree_on_V (length old) (fun j => rsum (fun k => ent M1 i k * ent M2 k j) (length mid)) (ent M i)
            (V fs old) N _ j Hj).
  intros a Ha.
  rewrite <- (rsum_assoc (ent M1) (ent M2) (fun l => V fs old l a) i (length mid) (length old)).
  unfold V. transitivity (fn fs a (pt new i)).
  - rewrite (fn_lin fs a) by lia. rewrite <- (H1 (delta a) i Hi). apply rsum_ext. intros k Hk.
    rewrite <- (H2 (delta a) k Hk). f_equal. apply rsum_ext. intros l _. now rewrite (fn_lin fs a) by lia.
  - rewrite (fn_lin fs a) by lia. rewrite <- (H (delta a) i Hi). apply rsum_ext. intros k _.
    now rewrite (fn_lin fs a) by lia.
Qed.

Theorem C26_nonsquare fs new old : defined_on fs new -> defined_on fs old -> length fs <> length old ->
  resampling_matrix fs new old false = Err RuntimeE.
Proof.
  intros DN DO HL. unfold resampling_matrix.
  destruct (vandermonde_succeeds _ _ DO) as (A & EA). destruct (vandermonde_succeeds _ _ DN) as (B & EB).
  rewrite EA, EB. cbn [bind].
  destruct (vandermonde_inv _ _ _ EA) as (RA & CA & _). destruct (vandermonde_inv _ _ _ EB) as (RB & CB & _).
  destruct (mdot_resample B (length fs) CB) as (B' & E' & _). rewrite E'. cbn [bind].
  rewrite RA, CA. apply Nat.neq_sym, Nat.eqb_neq in HL. now rewrite HL.
Qed.

(** Singular square systems raise LinAlgError. *)
Theorem C26_singular fs new old ls : defined_on fs new -> defined_on fs old -> length fs = length old ->
  ~ independent_on fs old -> resampling_matrix fs new old ls = Err LinAlgError.
Proof.
  intros DN DO HL HN. destruct (resampling_matrix fs new old ls) as [M|e] eqn:E.
  - exfalso. apply HN. now destruct (C26_square_only fs new old ls M HL E) as [[_ H] _].
  - revert E. unfold resampling_matrix.
    destruct (vandermonde_succeeds _ _ DO) as (A & EA). destruct (vandermonde_succeeds _ _ DN) as (B & EB).
    rewrite EA, EB. cbn [bind].
    destruct (vandermonde_inv _ _ _ EA) as (RA & CA & _). destruct (vandermonde_inv _ _ _ EB) as (RB & CB & _).
    destruct (mdot_resample B (length fs) CB) as (B' & E' & RB' & CB' & _). rewrite E'. cbn [bind].
    rewrite RA, CA, HL, Nat.eqb_refl. rewrite np_solve_singular; [intros X; exact (eq_sym X)| | |].
    all: cbn [mT nrows ncols ent]; try congruence.
    intros X. apply HN. apply (nonsing_V _ _ _ EA HL). rewrite CA, HL, <- RA in X. now apply nonsing_tr.
Qed.

(** The least-squares variant: exact on the span when the old Vandermonde matrix
    has full column rank ... *)
Theorem C26_least_squares fs new old : defined_on fs new -> defined_on fs old -> length fs <> length old ->
  exists M, resampling_matrix fs new old true = Ok M /\ nrows M = length new /\ ncols M = length old
    /\ (independent_on fs old -> forall c i, (i < length new)%nat ->
         rsum (fun k => ent M i k * lin fs c (pt old k)) (length old) = lin fs c (pt new i))
    (** ... and for arbitrary data it evaluates, at the new nodes, a least-squares
        best approximant. *)
    /\ forall u, exists c, (forall i, (i < length new)%nat ->
           rsum (fun k => ent M i k * u k) (length old) = lin fs c (pt new i))
         /\ forall d, rsum (fun k => (lin fs c (pt old k) - u k) ^ 2) (length old)
                      <= rsum (fun k => (lin fs d (pt old k) - u k) ^ 2) (length old).
Proof.
  intros DN DO HL.
  assert (ES : exists M, resampling_matrix fs new old true = Ok M).
  { unfold resampling_matrix.
    destruct (vandermonde_succeeds _ _ DO) as (A & EA). destruct (vandermonde_succeeds _ _ DN) as (B & EB).
    rewrite EA, EB. cbn [bind].
    destruct (vandermonde_inv _ _ _ EA) as (RA & CA & _). destruct (vandermonde_inv _ _ _ EB) as (RB & CB & _).
    destruct (mdot_resample B (length fs) CB) as (B' & E' & RB' & CB' & _). rewrite E'. cbn [bind].
    rewrite RA, CA. pose proof (proj2 (Nat.eqb_neq _ _) (Nat.neq_sym _ _ HL)) as X. rewrite X.
    unfold mdot. replace (ncols B' =? nrows (np_pinv A))%nat with true; [eauto|].
    symmetry. apply Nat.eqb_eq. cbn [np_pinv ofM nrows]. congruence. }
  destruct ES as (M & E). exists M. destruct (resampling_ls fs new old M HL E) as (R1 & C1 & _ & _ & A & EA & H).
  destruct (vandermonde_inv _ _ _ EA) as (RA & CA & HA & _).
  assert (LS : forall u i, (i < length new)%nat -> rsum (fun k => ent M i k * u k) (length old)
       = lin fs (fun j => rsum (fun k => ent (np_pinv A) j k * u k) (length old)) (pt new i)).
  { intros u i Hi.
    rewrite (rsum_ext _ (fun k => rsum (fun j => V fs new i j * ent (np_pinv A) j k) (length fs) * u k)).
    2:{ intros k Hk. now rewrite H. }
    rewrite <- (rsum_assoc (V fs new) (ent (np_pinv A)) u i (length fs) (length old)). apply lin_V. }
  assert (LV : forall d k, (k < length old)%nat -> rsum (fun l => ent A k l * d l) (length fs) = lin fs d (pt old k)).
  { intros d k Hk. rewrite <- lin_V. apply rsum_ext. intros l Hl. now rewrite HA. }
  assert (OPT : forall u d,
     rsum (fun k => (lin fs (fun j => rsum (fun k => ent (np_pinv A) j k * u k) (length old)) (pt old k) - u k) ^ 2) (length old)
     <= rsum (fun k => (lin fs d (pt old k) - u k) ^ 2) (length old)).
  { intros u d.
    pose proof (normal_optimal (nrows A) (ncols A) (ent A) u _ d (pinv_normal A u)) as HO.
    rewrite RA, CA in HO.
    rewrite (rsum_ext (fun k => (lin fs d (pt old k) - u k) ^ 2)
      (fun i => (rsum (fun l => ent A i l * d l) (length fs) - u i) ^ 2)) by (intros; now rewrite LV).
    eapply Rle_trans; [|exact HO]. right. apply rsum_ext. intros k Hk. now rewrite LV. }
  split; [easy|]. split; [easy|]. split; [easy|]. split.
  - intros HI c i Hi. rewrite (LS (fun k => lin fs c (pt old k)) i Hi).
    set (c' := fun j => rsum (fun k => ent (np_pinv A) j k * lin fs c (pt old k)) (length old)).
    pose proof (OPT (fun k => lin fs c (pt old k)) c) as HO. cbv beta in HO. fold c' in HO.
    assert (Z : rsum (fun k => (lin fs c (pt old k) - lin fs c (pt old k)) ^ 2) (length old) = 0).
    { transitivity (rsum (fun _ => 0) (length old)); [apply rsum_ext; intros; ring|].
      generalize (length old). induction n as [|n IH]; cbn [rsum]; [easy|rewrite IH; ring]. }
    rewrite Z in HO.
    assert (SQ : forall k, (k < length old)%nat -> lin fs c' (pt old k) = lin fs c (pt old k)).
    { assert (G : forall n f, (forall k, (k < n)%nat -> 0 <= f k) -> rsum f n <= 0 -> forall k, (k < n)%nat -> f k = 0).
      { clear. induction n as [|n IH]; intros f Hp Hs k Hk; [lia|]. cbn [rsum] in Hs.
        assert (P : 0 <= rsum f n).
        { clear -Hp. induction n as [|n IH]; cbn [rsum]; [lra|].
          assert (0 <= rsum f n) by (apply IH; auto). assert (0 <= f n) by (apply Hp; lia). lra. }
        assert (0 <= f n) by (apply Hp; lia).
        destruct (Nat.eq_dec k n) as [->|]; [lra|]. apply IH; [auto|lra|lia]. }
      intros k Hk. pose proof (G _ _ (fun k _ => pow2_ge_0 (lin fs c' (pt old k) - lin fs c (pt old k))) HO k Hk) as S.
      cbv beta in S. apply Rminus_diag_uniq. apply Rsqr_0_uniq. unfold Rsqr.
      rewrite <- S. ring. }
    unfold lin at 1 2. apply rsum_ext. intros j Hj. f_equal.
    refine (inj_cols_cancel (length old) (length fs) (V fs old) c' c (proj1 (independent_inj fs old) HI) _ j Hj).
    intros k Hk. rewrite !lin_V. now apply SQ.
  - intros u. eexists. split; [intros i Hi; now apply LS|]. apply OPT.
Qed.

(** Non-vacuity: the line 1, x through two nodes, and three nodes for least squares. *)
Definition ex_fs : list (list R -> res R) := [fun _ => Ok 1; fun x => Ok (nth 0 x 0)].
Definition ex_gs : list (list R -> res (list R)) := [fun _ => Ok [0]; fun _ => Ok [1]].
Lemma ex_defined xs : defined_on ex_fs xs.
Proof. intros f x [<-|[<-|[]]] _; eauto. Qed.
Lemma ex_lin c x : lin ex_fs c x = c 0%nat + c 1%nat * nth 0 x 0.
Proof. unfold lin, ex_fs. cbn [length rsum]. unfold fn. cbn [nth]. unfold valR. ring. Qed.
Lemma ex_indep a b l : In [a] l -> In [b] l -> a <> b -> independent_on ex_fs l.
Proof.
  intros Ha Hb Hab c H k Hk. pose proof (H _ Ha) as H1. pose proof (H _ Hb) as H2. rewrite ex_lin in H1, H2.
  cbn [nth] in H1, H2. assert (H3 : c 1%nat * (a - b) = 0) by lra. apply Rmult_integral in H3.
  destruct H3 as [H3|H3]; [|exfalso; apply Hab; lra]. rewrite H3 in H1.
  destruct k as [|[|k]]; [lra|easy|]. cbn in Hk. lia.
Qed.
Example C26_example : unisolvent ex_fs [[-1]; [1]] /\ defined_on ex_fs [[0]; [2]]
  /\ independent_on ex_fs [[-1]; [1]; [3]] /\ length ex_fs <> length [[-1]; [1]; [3]].
Proof.
  split; [split; [reflexivity|]|split; [|split]].
  - apply (ex_indep (-1) 1); [now left|right; now left|lra].
  - apply ex_defined.
  - apply (ex_indep (-1) 1); [now left|right; now left|lra].
  - cbn. lia.
Qed.

(** ** C27: differentiation *)
Theorem C27_exact junk fs gs nodes from_opt d
  (from := match from_opt with None => nodes | Some f => f end) :
  fs <> [] -> length gs = length fs -> nodes <> [] ->
  (forall x, In x nodes -> length x = d) ->
  (forall j f x, nth_error fs j = Some f -> In x nodes ->
     exists gf g, nth_error gs j = Some gf /\ gf x = Ok g /\ has_partials (valR f) x g) ->
  defined_on fs from -> unisolvent fs from ->
  exists Ds, differentiation_matrices junk fs gs nodes from_opt = Ok Ds /\ length Ds = d
    /\ (forall D, In D Ds -> nrows D = length nodes /\ ncols D = length from)
    /\ forall c i, (i < length nodes)%nat ->
        has_partials (lin fs c) (pt nodes i)
          (map (fun D => rsum (fun k => ent D i k * lin fs c (pt from k)) (length from)) Ds).
Proof.
  intros Hf Hg Hn Hd HG HD HU. apply diff_span; try assumption.
  intros j x Hj Hx. destruct (nth_error fs j) as [f|] eqn:Ef; [|apply nth_error_None in Ef; lia].
  destruct (HG j f x Ef Hx) as (gf & g & Eg & E & Hp). exists g. split.
  - unfold gfn. now rewrite (nth_error_nth _ _ _ Eg).
  - unfold fn. now rewrite (nth_error_nth _ _ _ Ef).
Qed.

(** A wrong number of nodes is a ValueError. *)
Theorem C27_mismatch junk fs gs nodes from_opt :
  length fs <> length (match from_opt with None => nodes | Some f => f end) ->
  differentiation_matrices junk fs gs nodes from_opt = Err ValueError.
Proof. intros H. unfold differentiation_matrices. apply Nat.eqb_neq in H. now rewrite H. Qed.

(** For the bases of modepy (gradients correct off the tolerance strips). *)
Theorem C27_basis junk b fs nodes from_opt
  (from := match from_opt with None => nodes | Some f => f end) :
  wf_basis b -> onb_dims 1 3 b -> functions Rops b = Ok fs -> nodes <> [] ->
  (forall x, In x nodes \/ In x from -> length x = basis_dim b) ->
  (forall x, In x nodes -> off_strips b x) ->
  unisolvent fs from -> fs <> [] ->
  exists Ds, diff_matrices junk b nodes from_opt = Ok Ds /\ length Ds = basis_dim b
    /\ forall c i, (i < length nodes)%nat ->
        has_partials (lin fs c) (pt nodes i)
          (map (fun D => rsum (fun k => ent D i k * lin fs c (pt from k)) (length from)) Ds).
Proof.
  intros Hw Ho Ef Hn Hd Hs HU Hfs.
  destruct (C24_gradients b Hw Ho) as (fs' & gs & dss & Ef' & Eg & Lg & _ & HG).
  assert (fs' = fs) by congruence. subst fs'.
  destruct (C27_exact junk fs gs nodes from_opt (basis_dim b)) as (Ds & ED & LD & _ & HD); try assumption.
  - intros x Hx. apply Hd. now left.
  - intros j f x Ej Hx. destruct (HG j f x Ej) as (g & v & c & Egj & Ev & Egx & _ & Hp).
    + apply Hd. now left.
    + exists g, c. split; [easy|]. split; [easy|]. apply Hp. now apply Hs.
  - fold from. intros f x Hf Hx. apply In_nth_error in Hf. destruct Hf as (j & Ej).
    destruct (HG j f x Ej) as (g & v & c & _ & Ev & _); [apply Hd; now right|]. eauto.
  - exists Ds. split; [unfold diff_matrices; rewrite Ef, Eg; exact ED|]. split; [easy|exact HD].
Qed.

Example C27_example : unisolvent ex_fs [[-1]; [1]]
  /\ forall j f x, nth_error ex_fs j = Some f -> In x [[-1]; [1]] ->
     exists gf g, nth_error ex_gs j = Some gf /\ gf x = Ok g /\ has_partials (valR f) x g.
Proof.
  split; [apply C26_example|]. intros [|[|j]] f x Ef Hx; cbn in Ef; [| |destruct j; discriminate].
  - injection Ef as <-. exists (fun _ => Ok [0]), [0]. split; [reflexivity|]. split; [reflexivity|].
    split; [destruct Hx as [<-|[<-|[]]]; reflexivity|]. intros j Hj. unfold valR.
    assert (nth j [0] 0 = 0) as -> by (destruct j as [|[|]]; reflexivity).
    apply (is_derive_const (1 : R) (nth j x 0)).
  - injection Ef as <-. exists (fun _ => Ok [1]), [1]. split; [reflexivity|]. split; [reflexivity|].
    assert (Hx' : exists a, x = [a]) by (destruct Hx as [<-|[<-|[]]]; eauto). destruct Hx' as (a & ->).
    split; [reflexivity|]. intros [|j] Hj; [|cbn in Hj; lia]. unfold valR. cbn [upd nth].
    apply (is_derive_id (K := R_AbsRing)).
Qed.

(** ** C28: mass matrices *)
(** fs evaluates phis at the nodes; phis are orthonormal on the shape s. *)
Definition represents (fs : list (list R -> res R)) (phis : list (list R -> R)) (xs : list (list R)) : Prop :=
  length phis = length fs /\
  forall k f phi x, nth_error fs k = Some f -> nth_error phis k = Some phi -> In x xs -> f x = Ok (phi x).

Lemma represents_defined fs phis xs : represents fs phis xs -> defined_on fs xs.
Proof.
  intros [L H] f x Hf Hx. apply In_nth_error in Hf. destruct Hf as (k & Ek).
  destruct (nth_error phis k) as [phi|] eqn:Ep.
  - eauto.
  - apply nth_error_None in Ep. assert (k < length fs)%nat by (apply nth_error_Some; congruence). lia.
Qed.
Lemma represents_lin fs phis xs c x : represents fs phis xs -> In x xs -> lin fs c x = combo phis c x.
Proof.
  intros [L H] Hx. unfold lin, combo. rewrite L. apply rsum_ext. intros j Hj. f_equal.
  unfold fn, valR. destruct (nth_error fs j) as [f|] eqn:Ef; [|apply nth_error_None in Ef; lia].
  destruct (nth_error phis j) as [phi|] eqn:Ep; [|apply nth_error_None in Ep; lia].
  rewrite (nth_error_nth _ _ _ Ef), (nth_error_nth _ _ _ Ep), (H j f phi x Ef Ep Hx). reflexivity.
Qed.

Theorem C28_mass fs phis nodes s : represents fs phis nodes -> orthonormal_on s phis -> unisolvent fs nodes ->
  exists M W, mass_matrix (inr fs) nodes = Ok M /\ inverse_mass_matrix (inr fs) nodes = Ok W
    /\ nrows M = length nodes /\ ncols M = length nodes /\ nrows W = length nodes /\ ncols W = length nodes
    (** nodal values u, v of functions of the span: u^T M v is the integral of u*v *)
    /\ (forall c d, is_int s (fun x => combo phis c x * combo phis d x)
          (rsum (fun i => combo phis c (pt nodes i)
                    * rsum (fun j => ent M i j * combo phis d (pt nodes j)) (length nodes)) (length nodes)))
    (** two-sided inverse *)
    /\ (forall i j, (i < length nodes)%nat -> (j < length nodes)%nat ->
          rsum (fun k => ent W i k * ent M k j) (length nodes) = (if (i =? j)%nat then 1 else 0)
          /\ rsum (fun k => ent M i k * ent W k j) (length nodes) = (if (i =? j)%nat then 1 else 0))
    (** symmetry *)
    /\ (forall i j, (i < length nodes)%nat -> (j < length nodes)%nat -> ent W i j = ent W j i)
    /\ (forall i j, (i < length nodes)%nat -> (j < length nodes)%nat -> ent M i j = ent M j i).
Proof.
  intros HR HO HU. pose proof (represents_defined _ _ _ HR) as HD.
  destruct (mass_seq_succeeds fs nodes HD HU) as (M & E). exists M.
  destruct (mass_seq_ok fs nodes M E) as (W & EW & H1 & H2 & H3 & H4 & H5 & H6 & H7 & _).
  destruct HU as [HL HI]. pose proof (proj1 (independent_inj fs nodes) HI) as N. rewrite HL in N.
  exists W. split; [easy|]. split; [easy|]. split; [easy|]. split; [easy|]. split; [easy|]. split; [easy|].
  assert (SW : forall i j, (i < length nodes)%nat -> (j < length nodes)%nat -> ent W i j = ent W j i).
  { intros i j Hi Hj. rewrite !H5 by easy. apply rsum_ext. intros; ring. }
  split; [|split; [|split]].
  - intros c d. eapply is_int_cast; [apply (int_combo s phis c d HO)|].
    assert (HV := VMV fs nodes (ent M) (length nodes) HL eq_refl).
    assert (HV' : forall a b, (a < length nodes)%nat -> (b < length nodes)%nat ->
       rsum (fun i => V fs nodes i a * rsum (fun j => ent M i j * V fs nodes j b) (length nodes)) (length nodes) = delta a b).
    { apply HV. intros i j Hi Hj. rewrite <- (H7 i j Hi Hj). apply rsum_ext. intros k Hk. f_equal.
      rewrite (H5 k j Hk Hj), HL. reflexivity. }
    rewrite (rsum_ext (fun i => combo phis c (pt nodes i) * _)
       (fun i => rsum (fun a => V fs nodes i a * c a) (length fs)
          * rsum (fun j => ent M i j * rsum (fun b => V fs nodes j b * d b) (length fs)) (length nodes))).
    2:{ intros i Hi. rewrite lin_V, (represents_lin fs phis nodes c) by (try apply pt_in; easy). f_equal.
        apply rsum_ext. intros j Hj. now rewrite lin_V, (represents_lin fs phis nodes d) by (try apply pt_in; easy). }
    rewrite rsum_double. rewrite (proj1 HR), HL. apply rsum_ext. intros a Ha.
    symmetry. rewrite (rsum_ext _ (fun b => (c a * d b) * delta a b)).
    2:{ intros b Hb. now rewrite HV'. }
    rewrite (rsum_single _ _ a Ha).
    + unfold delta. rewrite Nat.eqb_refl. ring.
    + intros b Hb Hne. unfold delta. destruct (Nat.eqb_spec a b); [congruence|ring].
  - intros i j Hi Hj. split; [now apply H6|now apply H7].
  - exact SW.
  - (* M and its transpose are both inverses of W *)
    intros i j Hi Hj.
    assert (A1 : forall i j, (i < length nodes)%nat -> (j < length nodes)%nat ->
       rsum (fun k => ent M k i * ent W k j) (length nodes) = delta i j).
    { intros i0 j0 Hi0 Hj0. rewrite (rsum_ext _ (fun k => ent W j0 k * ent M k i0)).
      - rewrite H6 by easy. unfold delta. now rewrite Nat.eqb_sym.
      - intros k Hk. rewrite (SW k j0) by easy. ring. }
    transitivity (rsum (fun l => ent M i l * rsum (fun k => ent W l k * ent M j k) (length nodes)) (length nodes)).
    + symmetry. rewrite (rsum_ext _ (fun l => ent M i l * delta l j)); [now apply rsum_delta_r|].
      intros l Hl. f_equal. rewrite (rsum_ext _ (fun k => ent M j k * ent W k l)).
      * rewrite H7 by easy. unfold delta. now rewrite Nat.eqb_sym.
      * intros k Hk. rewrite (SW l k) by easy. ring.
    + rewrite (rsum_assoc (ent M) (ent W) (fun k => ent M j k) i (length nodes) (length nodes)).
      rewrite (rsum_ext _ (fun k => delta i k * ent M j k)); [now apply rsum_delta|].
      intros k Hk. now rewrite H7.
Qed.

(** The mass matrix is the Gram matrix of the Lagrange functions of the nodes. *)
Theorem C28_lagrange fs phis nodes s : represents fs phis nodes -> orthonormal_on s phis -> unisolvent fs nodes ->
  exists M (c : nat -> nat -> R), mass_matrix (inr fs) nodes = Ok M
    /\ (forall i j, (i < length nodes)%nat -> (j < length nodes)%nat ->
          combo phis (c i) (pt nodes j) = if (i =? j)%nat then 1 else 0)
    /\ forall i j, (i < length nodes)%nat -> (j < length nodes)%nat ->
         is_int s (fun x => combo phis (c i) x * combo phis (c j) x) (ent M i j).
Proof.
  intros HR HO HU. destruct (C28_mass fs phis nodes s HR HO HU) as (M & W & E & EW & _ & _ & _ & _ & HI & Hinv & SW & SM).
  destruct (mass_seq_ok fs nodes M E) as (W' & EW' & _ & _ & _ & _ & H5 & _).
  assert (W' = W) by congruence. subst W'.
  set (n := length nodes) in *.
  exists M, (fun i a => rsum (fun k => V fs nodes k a * ent M k i) n). split; [easy|].
  assert (HLag : forall i j, (i < n)%nat -> (j < n)%nat ->
     combo phis (fun a => rsum (fun k => V fs nodes k a * ent M k i) n) (pt nodes j) = delta i j).
  { intros i j Hi Hj. rewrite <- (represents_lin fs phis nodes) by (try apply pt_in; easy).
    rewrite <- lin_V.
    rewrite (rsum_assoc (V fs nodes) (fun a k => V fs nodes k a) (fun k => ent M k i) j (length fs) n).
    rewrite (rsum_ext _ (fun k => ent W j k * ent M k i)).
    - rewrite (proj1 (Hinv j i Hj Hi)). unfold delta. now rewrite Nat.eqb_sym.
    - intros k Hk. now rewrite H5. }
  split; [exact HLag|]. intros i j Hi Hj.
  eapply is_int_cast; [apply HI|].
  rewrite (rsum_ext _ (fun i0 => delta i i0 * rsum (fun j0 => ent M i0 j0 * delta j j0) n)).
  2:{ intros k Hk. rewrite HLag by easy. f_equal. apply rsum_ext. intros l Hl. now rewrite HLag. }
  rewrite (rsum_delta (fun i0 => rsum (fun j0 => ent M i0 j0 * delta j j0) n) i n Hi).
  rewrite (rsum_ext _ (fun j0 => delta j j0 * ent M i j0)) by (intros; ring).
  exact (rsum_delta (ent M i) j n Hj).
Qed.

(** For the orthonormal basis of a space: node sets in the region where the
    functions agree with the polynomials (C25). *)
Theorem C28_for_space (sp : fspace) (sh : shape) nodes : fits sp sh -> pn_dims 1 3 sp ->
  exists b fs phis, orthonormal_basis_for_space sp sh = Ok b /\ functions Rops b = Ok fs
    /\ length phis = space_dim sp /\ orthonormal_on sh phis
    /\ mass_matrix (inl b) nodes = mass_matrix (inr fs) nodes
    /\ inverse_mass_matrix (inl b) nodes = inverse_mass_matrix (inr fs) nodes
    /\ ((forall x, In x nodes -> length x = spatial_dim sp /\ good_point b x) -> unisolvent fs nodes ->
        exists M, mass_matrix (inl b) nodes = Ok M
          /\ forall c d, is_int sh (fun x => combo phis c x * combo phis d x)
               (rsum (fun i => combo phis c (pt nodes i)
                  * rsum (fun j => ent M i j * combo phis d (pt nodes j)) (length nodes)) (length nodes))).
Proof.
  intros Hf Hp. destruct (C25_for_space sp sh Hf Hp) as (b & fs & phis & Eb & Ef & Lf & Lp & Ew & H1 & H2).
  exists b, fs, phis. split; [easy|]. split; [easy|]. split; [easy|].
  assert (HO : orthonormal_on sh phis) by exact H2. split; [easy|].
  assert (EI : inverse_mass_matrix (inl b) nodes = inverse_mass_matrix (inr fs) nodes).
  { unfold inverse_mass_matrix. rewrite Ew. destruct (Req_EM_T 1 1) as [_|X]; [|easy]. now rewrite Ef. }
  assert (EM : mass_matrix (inl b) nodes = mass_matrix (inr fs) nodes) by (unfold mass_matrix; now rewrite EI).
  split; [easy|]. split; [easy|]. intros Hx HU.
  assert (HR : represents fs phis nodes).
  { split; [exact (eq_trans Lp (eq_sym Lf))|]. intros k f phi x Ek Ep Hin. destruct (Hx x Hin). now apply (H1 k f phi Ek Ep). }
  destruct (C28_mass fs phis nodes sh HR HO HU) as (M & W & E & _ & _ & _ & _ & _ & HI & _).
  exists M. rewrite EM. easy.
Qed.

(** A basis with a monomial factor is refused; every other basis has weight 1. *)
Inductive has_monomial : basis -> Prop :=
| hm_mono d n : has_monomial (SimplexMonomial d n)
| hm_tp bs dims : Exists has_monomial bs -> has_monomial (TPBasis bs dims).
Lemma weight_cases b : (has_monomial b /\ orthonormality_weight b = Err BasisNotOrthonormalE)
  \/ (~ has_monomial b /\ orthonormality_weight b = Ok 1).
Proof.
  induction b as [d n|d n|bs dims IH] using basis_ind'.
  - right. split; [intros H; inversion H|reflexivity].
  - left. split; [constructor|reflexivity].
  - cbn [orthonormality_weight].
    assert (G : (Exists has_monomial bs /\ mapM orthonormality_weight bs = Err BasisNotOrthonormalE)
      \/ (~ Exists has_monomial bs /\ mapM orthonormality_weight bs = Ok (map (fun _ => 1) bs))).
    { induction IH as [|b bs Hb _ IHs].
      - right. split; [intros H; inversion H|reflexivity].
      - cbn [mapM map]. destruct Hb as [[Hm E]|[Hm E]]; rewrite E; cbn [bind].
        + left. split; [now constructor|reflexivity].
        + destruct IHs as [[Hs Es]|[Hs Es]]; rewrite Es; cbn [bind].
          * left. split; [now apply Exists_cons_tl|reflexivity].
          * right. split; [|reflexivity]. intros H. inversion H; subst; tauto. }
    destruct G as [[H E]|[H E]]; rewrite E; cbn [bind].
    + left. split; [now constructor|reflexivity].
    + right. split; [intros X; inversion X; tauto|]. f_equal. clear.
      induction bs as [|b bs IH]; [reflexivity|]. cbn [map fold_left]. now rewrite Rmult_1_l.
Qed.
Theorem C28_refused b nodes : has_monomial b ->
  inverse_mass_matrix (inl b) nodes = Err NotImplementedE /\ mass_matrix (inl b) nodes = Err NotImplementedE.
Proof.
  intros H. destruct (weight_cases b) as [[_ E]|[X _]]; [|easy].
  unfold mass_matrix, inverse_mass_matrix. rewrite E. split; reflexivity.
Qed.
Theorem C28_accepted b fs nodes : ~ has_monomial b -> functions Rops b = Ok fs ->
  inverse_mass_matrix (inl b) nodes = inverse_mass_matrix (inr fs) nodes.
Proof.
  intros H Ef. destruct (weight_cases b) as [[X _]|[_ E]]; [easy|].
  unfold inverse_mass_matrix. rewrite E. destruct (Req_EM_T 1 1) as [_|X]; [|easy]. now rewrite Ef.
Qed.

(** Non-vacuity: the normalised 1, x on [-1, 1] with the nodes -1, 1. *)
Definition ex_phis : list (list R -> R) := [fun _ => / sqrt 2; fun x => sqrt (3 / 2) * nth 0 x 0].
Definition ex_onb : list (list R -> res R) := map (fun phi x => Ok (phi x)) ex_phis.
Lemma sqrt_half_sq : / sqrt 2 * / sqrt 2 = 1 / 2.
Proof. rewrite <- Rinv_mult. rewrite sqrt_sqrt by lra. lra. Qed.
Example C28_example : represents ex_onb ex_phis [[-1]; [1]] /\ orthonormal_on (Simplex 1) ex_phis
  /\ unisolvent ex_onb [[-1]; [1]].
Proof.
  assert (S32 : sqrt (3 / 2) * sqrt (3 / 2) = 3 / 2) by (apply sqrt_sqrt; lra).
  assert (P2 : 0 < / sqrt 2) by (apply Rinv_0_lt_compat, sqrt_lt_R0; lra).
  assert (P32 : 0 < sqrt (3 / 2)) by (apply sqrt_lt_R0; lra).
  split; [split; [reflexivity|]|split].
  - intros [|[|k]] f phi x Ef Ep _; cbn in Ef, Ep; try (destruct k; discriminate);
      injection Ef as <-; injection Ep as <-; reflexivity.
  - assert (POLY : forall a b c v, v = 2 * a + 2 * c / 3 ->
       is_int (Simplex 1) (fun x => a + b * nth 0 x 0 + c * (nth 0 x 0 * nth 0 x 0)) v).
    { intros a b c v ->. cbn [is_int is_int_simplex]. exists (fun r => a + b * r + c * (r * r)). split.
      - intros r. cbn [nth]. reflexivity.
      - replace (-1 + 2) with 1 by ring.
        apply (is_RInt_ext (Derive (fun r => a * r + b * r ^ 2 / 2 + c * r ^ 3 / 3))).
        + intros r _. apply is_derive_unique. auto_derive; [easy|]. field.
        + replace (2 * a + 2 * c / 3) with
            ((a * 1 + b * 1 ^ 2 / 2 + c * 1 ^ 3 / 3) - (a * (-1) + b * (-1) ^ 2 / 2 + c * (-1) ^ 3 / 3)) by field.
          apply (is_RInt_derive (fun r => a * r + b * r ^ 2 / 2 + c * r ^ 3 / 3)).
          * intros r _. apply Derive_correct. auto_derive. easy.
          * intros r _. apply (continuous_ext (fun r => a + b * r + c * (r * r))).
            -- intros x. symmetry. apply is_derive_unique. auto_derive; [easy|]. field.
            -- apply (ex_derive_continuous (fun r : R => a + b * r + c * (r * r))). auto_derive. easy. }
    intros [|[|k]] [|[|l]] phi psi Ep Eq; cbn in Ep, Eq; try (destruct k; discriminate); try (destruct l; discriminate);
      injection Ep as <-; injection Eq as <-.
    + apply (is_int_ext (Simplex 1) (fun x => 1 / 2 + 0 * nth 0 x 0 + 0 * (nth 0 x 0 * nth 0 x 0))).
      * intros x _. rewrite sqrt_half_sq. ring.
      * apply POLY. unfold delta. cbn. field.
    + apply (is_int_ext (Simplex 1) (fun x => 0 + (/ sqrt 2 * sqrt (3 / 2)) * nth 0 x 0 + 0 * (nth 0 x 0 * nth 0 x 0))).
      * intros x _. ring.
      * apply POLY. unfold delta. cbn. field.
    + apply (is_int_ext (Simplex 1) (fun x => 0 + (/ sqrt 2 * sqrt (3 / 2)) * nth 0 x 0 + 0 * (nth 0 x 0 * nth 0 x 0))).
      * intros x _. ring.
      * apply POLY. unfold delta. cbn. field.
    + apply (is_int_ext (Simplex 1) (fun x => 0 + 0 * nth 0 x 0 + (sqrt (3 / 2) * sqrt (3 / 2)) * (nth 0 x 0 * nth 0 x 0))).
      * intros x _. ring.
      * apply POLY. unfold delta. cbn. rewrite S32. field.
  - split; [reflexivity|]. intros c Hc k Hk.
    pose proof (Hc [-1] (or_introl eq_refl)) as A. pose proof (Hc [1] (or_intror (or_introl eq_refl))) as B.
    unfold lin, ex_onb, ex_phis in A, B. cbn [length map rsum] in A, B. unfold fn, valR in A, B. cbn [nth] in A, B.
    assert (X0 : c 0%nat * / sqrt 2 = 0) by lra. assert (X1 : c 1%nat * sqrt (3 / 2) = 0) by lra.
    apply Rmult_integral in X0, X1. destruct k as [|[|k]]; [lra|lra|cbn in Hk; lia].
Qed.

(** ** C29: quadrature-based operators *)
Lemma pair_with fs nds (T : nat -> R) (X : nat -> R) c n :
  length fs = n ->
  (forall a, (a < n)%nat -> rsum (fun i => V fs nds i a * X i) (length nds) = T a) ->
  rsum (fun i => lin fs c (pt nds i) * X i) (length nds) = rsum (fun a => c a * T a) n.
Proof.
  intros L H.
  rewrite (rsum_ext _ (fun i => rsum (fun a => c a * (V fs nds i a * X i)) n)).
  2:{ intros i _. unfold lin. rewrite L, <- rsum_scal_r. apply rsum_ext. intros a _. unfold V. ring. }
  rewrite rsum_swap. apply rsum_ext. intros a Ha. rewrite rsum_scal, H; easy.
Qed.

(** The matrix applied to values u at the quadrature nodes, paired with the nodal
    values of a combination of the interpolation functions, is the rule applied to
    the same combination of the test functions times u. *)
Theorem C29_test_matrix q tests interp nodes A
  (nds := match nodes with Some n => n | None => q_nodes q end) :
  nodal_quadrature_test_matrix q tests interp nodes None = Ok A ->
  nrows A = length nds /\ ncols A = length (q_nodes q) /\ length tests = length interp
  /\ forall c (u : list R -> R),
    q_call q (fun x => Ok (lin tests c x * u x))
    = Ok (rsum (fun i => lin interp c (pt nds i)
              * rsum (fun k => ent A i k * u (pt (q_nodes q) k)) (length (q_nodes q))) (length nds)).
Proof.
  intros E. destruct (test_matrix_ok q tests interp nodes None A E) as (tn & Et & Lt & Lw & Li & Ltt & DI & DT & RA & CA & H).
  fold nds in Li, DI, RA, H. injection Et as <-. split; [easy|]. split; [easy|]. split; [easy|]. intros c u.
  rewrite (q_call_rsum q (fun x => lin tests c x * u x)) by easy. f_equal. symmetry.
  rewrite (pair_with interp nds
     (fun a => rsum (fun k => V tests (q_nodes q) k a * nth k (q_weights q) 0 * u (pt (q_nodes q) k)) (length (q_nodes q)))
     (fun i => rsum (fun k => ent A i k * u (pt (q_nodes q) k)) (length (q_nodes q))) c (length interp) eq_refl).
  - rewrite (rsum_ext _ (fun a => rsum (fun k => c a * (V tests (q_nodes q) k a * nth k (q_weights q) 0 * u (pt (q_nodes q) k)))
        (length (q_nodes q)))) by (intros; now rewrite rsum_scal).
    rewrite rsum_swap. apply rsum_ext. intros k Hk. unfold lin.
    rewrite Ltt, <- rsum_scal_r, <- rsum_scal. apply rsum_ext. intros a _. unfold V. ring.
  - intros a Ha.
    rewrite (rsum_assoc (fun a i => V interp nds i a) (ent A) (fun k => u (pt (q_nodes q) k)) a (length nds) (length (q_nodes q))).
    apply rsum_ext. intros k Hk. rewrite H by congruence. reflexivity.
Qed.

(** The same with a map of the quadrature nodes in front of the test functions. *)
Theorem C29_test_matrix_mapped q tests interp nodes (mp : list R -> list R) A
  (nds := match nodes with Some n => n | None => q_nodes q end) :
  nodal_quadrature_test_matrix q tests interp nodes (Some (fun x => Ok (mp x))) = Ok A ->
  forall c (u : list R -> R),
    q_call q (fun x => Ok (lin tests c (mp x) * u x))
    = Ok (rsum (fun i => lin interp c (pt nds i)
              * rsum (fun k => ent A i k * u (pt (q_nodes q) k)) (length (q_nodes q))) (length nds)).
Proof.
  intros E c u.
  destruct (test_matrix_ok q tests interp nodes _ A E) as (tn & Et & Lt & Lw & Li & Ltt & DI & DT & RA & CA & H).
  fold nds in Li, DI, RA, H.
  assert (Et' : tn = map mp (q_nodes q)).
  { clear -Et. cbv beta iota in Et. revert tn Et. generalize (q_nodes q) as l. induction l as [|x l IH]; intros tn Et;
      cbn [mapM bind] in Et; [now injection Et as <-|].
    destruct (mapM (fun x => Ok (mp x)) l) as [r|] eqn:Er; [|discriminate]. injection Et as <-.
    cbn [map]. f_equal. now apply IH. }
  assert (Ept : forall k, (k < length (q_nodes q))%nat -> pt tn k = mp (pt (q_nodes q) k)).
  { intros k Hk. subst tn. unfold pt. rewrite (nth_indep _ [] (mp [])) by (now rewrite map_length). apply map_nth. }
  rewrite (q_call_rsum q (fun x => lin tests c (mp x) * u x)) by easy. f_equal. symmetry.
  rewrite (pair_with interp nds
     (fun a => rsum (fun k => V tests tn k a * nth k (q_weights q) 0 * u (pt (q_nodes q) k)) (length (q_nodes q)))
     (fun i => rsum (fun k => ent A i k * u (pt (q_nodes q) k)) (length (q_nodes q))) c (length interp) eq_refl).
  - rewrite (rsum_ext _ (fun a => rsum (fun k => c a * (V tests tn k a * nth k (q_weights q) 0 * u (pt (q_nodes q) k)))
        (length (q_nodes q)))) by (intros; now rewrite rsum_scal).
    rewrite rsum_swap. apply rsum_ext. intros k Hk. unfold lin.
    rewrite Ltt, <- rsum_scal_r, <- rsum_scal. apply rsum_ext. intros a _. unfold V. rewrite Ept by easy. ring.
  - intros a Ha.
    rewrite (rsum_assoc (fun a i => V interp nds i a) (ent A) (fun k => u (pt (q_nodes q) k)) a (length nds) (length (q_nodes q))).
    apply rsum_ext. intros k Hk. rewrite H by congruence. reflexivity.
Qed.

Theorem C29_bilinear q tests trials itest itrial inn outn A
  (out := match outn with Some n => n | None => inn end) :
  nodal_quadrature_bilinear_form_matrix q tests trials itest itrial inn outn None = Ok A ->
  nrows A = length out /\ ncols A = length inn
  /\ forall c d,
    q_call q (fun x => Ok (lin tests c x * lin trials d x))
    = Ok (rsum (fun i => lin itest c (pt out i)
              * rsum (fun j => ent A i j * lin itrial d (pt inn j)) (length inn)) (length out)).
Proof.
  intros E. destruct (bilinear_ok q tests trials itest itrial inn outn None A E)
    as (tn & Et & Lt & Lw & Li & Lj & Ltt & Ltr & RA & CA & H).
  fold out in Li, RA, H. injection Et as <-. split; [easy|]. split; [easy|]. intros c d.
  rewrite (q_call_rsum q (fun x => lin tests c x * lin trials d x)) by easy. f_equal. symmetry.
  rewrite (rsum_ext _ (fun i => rsum (fun a => V itest out i a * c a) (length itest)
     * rsum (fun j => ent A i j * rsum (fun b => V itrial inn j b * d b) (length itrial)) (length inn))).
  2:{ intros i _. rewrite lin_V. f_equal. apply rsum_ext. intros j _. now rewrite lin_V. }
  rewrite rsum_double, <- Ltt, <- Ltr.
  rewrite (rsum_ext _ (fun a => rsum (fun b => rsum (fun k =>
     c a * d b * (V tests (q_nodes q) k a * V trials (q_nodes q) k b * nth k (q_weights q) 0)) (length (q_nodes q)))
     (length trials))).
  2:{ intros a Ha. apply rsum_ext. intros b Hb. rewrite H by easy. now rewrite rsum_scal. }
  rewrite (rsum_ext _ (fun a => rsum (fun k => rsum (fun b =>
     c a * d b * (V tests (q_nodes q) k a * V trials (q_nodes q) k b * nth k (q_weights q) 0)) (length trials))
     (length (q_nodes q)))) by (intros; apply rsum_swap).
  rewrite rsum_swap. apply rsum_ext. intros k Hk. unfold lin.
  rewrite <- rsum_scal_r, <- rsum_scal. apply rsum_ext. intros a _.
  rewrite <- rsum_scal, <- rsum_scal. apply rsum_ext. intros b _. unfold V. ring.
Qed.

(** With a rule exact for the products of orthonormal functions the bilinear form
    matrix of that basis with itself is the mass matrix. *)
Theorem C29_equals_mass q fs phis nodes s : represents fs phis nodes -> represents fs phis (q_nodes q) ->
  orthonormal_on s phis -> unisolvent fs nodes -> length (q_weights q) = length (q_nodes q) ->
  (forall k l phi psi v, nth_error phis k = Some phi -> nth_error phis l = Some psi ->
     is_int s (fun x => phi x * psi x) v -> q_call q (fun x => Ok (phi x * psi x)) = Ok v) ->
  exists A M, nodal_quadrature_bilinear_form_matrix q fs fs fs fs nodes None None = Ok A
    /\ mass_matrix (inr fs) nodes = Ok M
    /\ forall i j, (i < length nodes)%nat -> (j < length nodes)%nat -> ent A i j = ent M i j.
Proof.
  intros HR HQ HO HU Lw Hex. pose proof (represents_defined _ _ _ HR) as HD.
  pose proof (represents_defined _ _ _ HQ) as HDQ.
  destruct (mass_seq_succeeds fs nodes HD HU) as (M & E).
  destruct (mass_seq_ok fs nodes M E) as (W & EW & H1 & H2 & H3 & H4 & H5 & H6 & H7 & _).
  pose proof HU as [HL HI]. pose proof (proj1 (independent_inj fs nodes) HI) as N. rewrite HL in N.
  assert (EA : exists A, nodal_quadrature_bilinear_form_matrix q fs fs fs fs nodes None None = Ok A).
  { unfold nodal_quadrature_bilinear_form_matrix. rewrite HL, Nat.eqb_refl. cbn [negb bind].
    destruct (vandermonde_succeeds _ _ HDQ) as (T & ET). rewrite ET. cbn [bind].
    destruct (vandermonde_inv _ _ _ ET) as (RT & CT & _).
    unfold einsum3. rewrite Nat.eqb_refl, RT, Lw, Nat.eqb_refl. cbn [andb bind].
    destruct (vandermonde_succeeds _ _ HD) as (B & EB). rewrite EB. cbn [bind].
    destruct (vandermonde_inv _ _ _ EB) as (RB & CB & _).
    assert (NB : nonsing (nrows B) (ent B)) by (now apply (nonsing_V _ _ _ EB HL)).
    destruct (@np_inv_succeeds B) as (P & EP); [congruence|easy|]. rewrite EP. cbn [bind].
    destruct (np_inv_ok EP) as (_ & I2 & I3 & _). unfold mdot. cbn [nrows ncols].
    replace (ncols T =? nrows P)%nat with true by (symmetry; apply Nat.eqb_eq; congruence). cbn [bind].
    apply np_solve_succeeds; cbn [mT nrows ncols ent]; [congruence|congruence|].
    rewrite CB, HL, <- RB. now apply (proj1 (nonsing_tr _ _)). }
  destruct EA as (A & EA). exists A, M. split; [easy|]. split; [easy|].
  destruct (bilinear_ok _ _ _ _ _ _ _ _ _ EA) as (tn & Et & _ & _ & _ & _ & _ & _ & _ & _ & HB).
  injection Et as <-.
  apply (agree2 (length nodes) (ent A) (ent M) (V fs nodes) N). intros a b Ha Hb.
  rewrite HB by lia.
  rewrite (VMV fs nodes (ent M) (length nodes) HL eq_refl) by
    (try easy; intros i j Hi Hj; rewrite <- (H7 i j Hi Hj); apply rsum_ext; intros k Hk; f_equal;
     rewrite (H5 k j Hk Hj), HL; reflexivity).
  destruct HR as [LP _]. pose proof HQ as [_ HQ'].
  destruct (nth_error phis a) as [phi|] eqn:Ea; [|apply nth_error_None in Ea; lia].
  destruct (nth_error phis b) as [psi|] eqn:Eb; [|apply nth_error_None in Eb; lia].
  pose proof (Hex a b phi psi _ Ea Eb (HO a b phi psi Ea Eb)) as Q.
  rewrite (q_call_rsum q (fun x => phi x * psi x)) in Q by easy. injection Q as Q. rewrite <- Q.
  assert (VV : forall c chi k, nth_error phis c = Some chi -> (k < length (q_nodes q))%nat ->
     V fs (q_nodes q) k c = chi (pt (q_nodes q) k)).
  { intros c chi k Ec Hk. unfold V, fn, valR.
    destruct (nth_error fs c) as [f|] eqn:Ef.
    - rewrite (nth_error_nth _ _ _ Ef), (HQ' c f chi _ Ef Ec (pt_in _ _ Hk)). reflexivity.
    - apply nth_error_None in Ef. assert (c < length phis)%nat by (apply nth_error_Some; congruence). lia. }
  apply rsum_ext. intros k Hk. rewrite (VV a phi), (VV b psi) by easy. ring.
Qed.

(** Successful on defined functions, unisolvent interpolation nodes. *)
Theorem C29_test_matrix_succeeds q tests interp nodes : defined_on interp nodes -> unisolvent interp nodes ->
  defined_on tests (q_nodes q) -> length tests = length interp -> length (q_weights q) = length (q_nodes q) ->
  exists A, nodal_quadrature_test_matrix q tests interp (Some nodes) None = Ok A.
Proof.
  intros HD [HL HI] HT Ltt Lw. unfold nodal_quadrature_test_matrix. cbn [bind]. rewrite HL, Nat.eqb_refl. cbn [negb].
  destruct (vandermonde_succeeds _ _ HD) as (B & EB). rewrite EB. cbn [bind].
  destruct (vandermonde_succeeds _ _ HT) as (T & ET). rewrite ET. cbn [bind].
  destruct (vandermonde_inv _ _ _ EB) as (RB & CB & _). destruct (vandermonde_inv _ _ _ ET) as (RT & CT & _).
  unfold mscale_cols. cbn [mT nrows ncols ent]. rewrite RT, Lw, Nat.eqb_refl. cbn [bind].
  apply np_solve_succeeds; cbn [mT nrows ncols ent]; [congruence|congruence|].
  rewrite CB, HL, <- RB. apply (proj1 (nonsing_tr _ _)). now apply (nonsing_V _ _ _ EB HL).
Qed.
(** Finding: with [nodes=None] and a one-dimensional rule with flat nodes the
    function raises IndexError at [nodes.shape[1]] (matrices.py:386). *)
Theorem C29_flat_refuted q tests interp mp : q_flat q = true ->
  nodal_quadrature_test_matrix q tests interp None mp = Err IndexError.
Proof. intros H. unfold nodal_quadrature_test_matrix. rewrite H. reflexivity. Qed.

(** Non-vacuity: the two-point Gauss rule with the basis of C28_example. *)
Definition ex_quad : quad :=
  {| q_flat := false; q_dim := 1; q_nodes := [[- / sqrt 3]; [/ sqrt 3]]; q_weights := [1; 1]; q_exact := Some (NFin (QArith_base.Qmake 3 1)) |}.
Example C29_example : represents ex_onb ex_phis (q_nodes ex_quad)
  /\ length (q_weights ex_quad) = length (q_nodes ex_quad)
  /\ forall k l phi psi v, nth_error ex_phis k = Some phi -> nth_error ex_phis l = Some psi ->
     is_int (Simplex 1) (fun x => phi x * psi x) v -> q_call ex_quad (fun x => Ok (phi x * psi x)) = Ok v.
Proof.
  split; [split; [reflexivity|]|split; [reflexivity|]].
  - intros [|[|k]] f phi x Ef Ep _; cbn in Ef, Ep; try (destruct k; discriminate);
      injection Ef as <-; injection Ep as <-; reflexivity.
  - intros k l phi psi v Ep Eq Hv. destruct C28_example as (_ & HO & _).
    pose proof (HO k l phi psi Ep Eq) as HI.
    assert (Ev : v = delta k l) by (eapply is_int_unique; eassumption). subst v. clear HI Hv.
    assert (S32 : sqrt (3 / 2) * sqrt (3 / 2) = 3 / 2) by (apply sqrt_sqrt; lra).
    assert (S3 : / sqrt 3 * / sqrt 3 = 1 / 3) by (rewrite <- Rinv_mult, sqrt_sqrt by lra; lra).
    assert (EQ : forall a b, q_call ex_quad (fun x => Ok (a x * b x))
       = Ok (a [- / sqrt 3] * b [- / sqrt 3] + a [/ sqrt 3] * b [/ sqrt 3])).
    { intros a b. unfold q_call, ex_quad. cbn. unfold dotR. cbn. f_equal. ring. }
    rewrite EQ. f_equal. clear EQ.
    destruct k as [|[|k]], l as [|[|l]]; cbn in Ep, Eq; try (destruct k; discriminate); try (destruct l; discriminate);
      injection Ep as <-; injection Eq as <-; cbn [nth]; unfold delta; cbn [Nat.eqb].
    + rewrite sqrt_half_sq. lra.
    + ring.
    + ring.
    + replace (sqrt (3 / 2) * - / sqrt 3 * (sqrt (3 / 2) * - / sqrt 3) + sqrt (3 / 2) * / sqrt 3 * (sqrt (3 / 2) * / sqrt 3))
        with (2 * ((sqrt (3 / 2) * sqrt (3 / 2)) * (/ sqrt 3 * / sqrt 3))) by ring.
      rewrite S32, S3. lra.
Qed.

(** ** C30: permuting one differentiation matrix into another *)
(** [exch d k l]: entries 0 and k of l exchanged (ProofDiffPerm). *)
Theorem C30_permutation nts k dim : (k < dim)%nat -> Forall (fun t => length t = dim) nts -> NoDup nts ->
  (forall t, In t nts -> In (exch 0%nat k t) nts) ->
  exists perm, diff_matrix_permutation nts k = Ok perm /\ Permutation perm (seq 0 (length nts))
    /\ forall i, (i < length nts)%nat ->
         nth (nth i perm 0%nat) nts [] = exch 0%nat k (nth i nts [])
         /\ nth (nth i perm 0%nat) perm 0%nat = i.
Proof.
  intros Hk HL HN HC. destruct (perm_ok nts k dim Hk HL HN HC) as (perm & E & L & H & P).
  exists perm. split; [easy|]. split; [easy|]. intros i Hi. now destruct (H i Hi) as (_ & A & B).
Qed.
Theorem C30_exch_meaning (A : Type) (d : A) (k : nat) (l : list A) : (k < length l)%nat ->
  length (exch d k l) = length l /\ nth 0 (exch d k l) d = nth k l d /\ nth k (exch d k l) d = nth 0 l d
  /\ forall i, i <> 0%nat -> i <> k -> nth i (exch d k l) d = nth i l d.
Proof.
  intros H. split; [apply exch_length|]. split; [rewrite exch_nth by lia; reflexivity|]. split.
  - rewrite exch_nth by lia. unfold exch_idx. rewrite Nat.eqb_refl. destruct (Nat.eqb_spec k 0); subst; reflexivity.
  - intros i H0 Hk. destruct (Nat.lt_ge_cases i (length l)).
    + rewrite exch_nth by easy. unfold exch_idx. apply Nat.eqb_neq in H0, Hk. now rewrite H0, Hk.
    + rewrite !nth_overflow by (rewrite ?exch_length; lia). reflexivity.
Qed.
(** A tuple whose exchange is missing from the list is a KeyError. *)
Theorem C30_keyerror nts k t dim : (0 < k < dim)%nat -> Forall (fun t => length t = dim) nts ->
  In t nts -> ~ In (exch 0%nat k t) nts -> diff_matrix_permutation nts k = Err KeyError.
Proof.
  intros Hk HL Ht Hn. unfold diff_matrix_permutation.
  replace (k =? 0)%nat with false by (symmetry; apply Nat.eqb_neq; lia).
  assert (G : forall keys key, (exists i, dict_index keys key = Ok i /\ In key keys)
     \/ (dict_index keys key = Err KeyError /\ ~ In key keys)).
  { intros keys key. unfold dict_index. generalize 0%nat as s.
    induction keys as [|a keys IH]; intros s; [right; split; [reflexivity|easy]|].
    cbn [dict_index_from]. destruct (IH (S s)) as [(i & E & Hi)|[E Hni]].
    - left. destruct (dict_index_from (S s) keys key); [|discriminate]. exists n. split; [reflexivity|now right].
    - destruct (dict_index_from (S s) keys key); [discriminate|].
      destruct (tuple_eqb a key) eqn:Ek.
      + apply tuple_eqb_eq in Ek. subst. left. exists s. split; [reflexivity|now left].
      + right. split; [reflexivity|]. intros [->|X]; [|easy]. now rewrite tuple_eqb_refl in Ek. }
  assert (F : forall l, (forall u, In u l -> length u = dim) -> In t l ->
     mapM (fun nt => let* swapped := swap_entries k nt in dict_index nts swapped) l = Err KeyError).
  { induction l as [|u l IH]; intros Hl Hin; [easy|]. cbn [mapM].
    rewrite swap_entries_exch by (rewrite (Hl u (or_introl eq_refl)); lia). cbn [bind].
    destruct (G nts (exch 0%nat k u)) as [(i & E & Hi)|[E _]]; rewrite E; cbn [bind]; [|reflexivity].
    destruct Hin as [->|Hin]; [easy|]. rewrite IH; [reflexivity|intros; apply Hl; now right|easy]. }
  apply F; [|easy]. now apply Forall_forall.
Qed.

(** Differentiation along axis k is the permuted differentiation along axis 0. *)
Theorem C30_matrices junk fs gs nodes nts dim k :
  fs <> [] -> length gs = length fs -> nodes <> [] ->
  (forall x, In x nodes -> length x = dim) -> (k < dim)%nat ->
  (forall j f x, nth_error fs j = Some f -> In x nodes ->
     exists gf g, nth_error gs j = Some gf /\ gf x = Ok g /\ has_partials (valR f) x g) ->
  defined_on fs nodes -> unisolvent fs nodes ->
  (** the node set is symmetric as described by its tuples *)
  length nts = length nodes -> NoDup nts -> Forall (fun t => length t = dim) nts ->
  (forall t, In t nts -> In (exch 0%nat k t) nts) ->
  (forall i i', (i < length nodes)%nat -> (i' < length nodes)%nat ->
     nth i' nts [] = exch 0%nat k (nth i nts []) -> pt nodes i' = exch 0 k (pt nodes i)) ->
  (** and so is the span of the basis *)
  (forall c, exists c', forall x, length x = dim -> lin fs c (exch 0 k x) = lin fs c' x) ->
  exists perm Ds D0 Dk, diff_matrix_permutation nts k = Ok perm
    /\ differentiation_matrices junk fs gs nodes None = Ok Ds
    /\ nth_error Ds 0 = Some D0 /\ nth_error Ds k = Some Dk
    /\ forall i j, (i < length nodes)%nat -> (j < length nodes)%nat ->
         ent Dk i j = ent D0 (nth i perm 0%nat) (nth j perm 0%nat).
Proof.
  intros Hf Hg Hn Hd Hk HG HD HU Ln HN HL HC Hsym Hspan.
  destruct (perm_ok nts k dim Hk HL HN HC) as (perm & E & Lp & HP & PP).
  destruct (C27_exact junk fs gs nodes None dim Hf Hg Hn Hd HG HD HU) as (Ds & ED & LD & _ & _).
  exists perm, Ds.
  destruct (diff_exchange junk fs gs nodes nts dim k perm Ds Hf Hg Hn Hd Hk) as (D0 & Dk & E0 & Ek & H); try assumption.
  - intros j x Hj Hx. destruct (nth_error fs j) as [f|] eqn:Ef; [|apply nth_error_None in Ef; lia].
    destruct (HG j f x Ef Hx) as (gf & g & Eg & Ex & Hp). exists g. split.
    + unfold gfn. now rewrite (nth_error_nth _ _ _ Eg).
    + unfold fn. now rewrite (nth_error_nth _ _ _ Ef).
  - exists D0, Dk. auto.
Qed.

(** The symmetry hypotheses hold for the monomial basis on all simplices and for
    nodes obtained by scaling the node tuples (equispaced nodes). *)
Theorem C30_monomials junk d n k (g : nat -> R) (nodes := map (map g) (gnitsam n d)) fs :
  (k < d)%nat -> functions Rops (SimplexMonomial d n) = Ok fs -> unisolvent fs nodes ->
  exists perm Ds D0 Dk, diff_matrix_permutation (gnitsam n d) k = Ok perm
    /\ diff_matrices junk (SimplexMonomial d n) nodes None = Ok Ds
    /\ nth_error Ds 0 = Some D0 /\ nth_error Ds k = Some Dk
    /\ forall i j, (i < length nodes)%nat -> (j < length nodes)%nat ->
         ent Dk i j = ent D0 (nth i perm 0%nat) (nth j perm 0%nat).
Proof.
  intros Hk Ef HU. cbn [functions] in Ef. injection Ef as <-. unfold diff_matrices. cbn [functions gradients bind].
  unfold simplex_mode_tuples in *.
  assert (LT : forall t, In t (gnitsam n d) -> length t = d) by (intros t Ht; now apply gnitsam_in in Ht).
  assert (NE : gnitsam n d <> []).
  { intros X. assert (Hin : In (repeat 0%nat d) (gnitsam n d)).
    { apply gnitsam_in. split; [apply repeat_length|]. clear. unfold sum_nat. induction d; cbn; lia. }
    rewrite X in Hin. easy. }
  assert (LN : forall x, In x nodes -> length x = d).
  { intros x Hx. unfold nodes in Hx. apply in_map_iff in Hx. destruct Hx as (t & <- & Ht). now rewrite map_length, LT. }
  apply (C30_matrices junk _ _ nodes (gnitsam n d) d k).
  - destruct (gnitsam n d); [easy|discriminate].
  - now rewrite !map_length.
  - unfold nodes. destruct (gnitsam n d); [easy|discriminate].
  - exact LN.
  - easy.
  - intros j f x Ej Hx. rewrite nth_error_map in Ej |- *. destruct (nth_error (gnitsam n d) j) as [e|] eqn:Ee; [|discriminate].
    cbn [option_map] in Ej |- *. injection Ej as <-. assert (He : length e = d) by (apply LT; eapply nth_error_In; eauto).
    destruct (C23_monomial e x) as (_ & gr & Egr & Hp & _); [rewrite (LN x Hx); easy|].
    exists (grad_monomial Rops e), gr. auto.
  - intros f x Hfin Hx. apply in_map_iff in Hfin. destruct Hfin as (e & <- & He).
    exists (monoval e x). apply monomial_val. now rewrite (LN x Hx), LT.
  - exact HU.
  - unfold nodes. now rewrite map_length.
  - apply gnitsam_NoDup.
  - apply gnitsam_lengths.
  - intros t Ht. now apply gnitsam_exch.
  - intros i i' Hi Hi' E. unfold nodes in *. rewrite map_length in Hi, Hi'. unfold pt.
    assert (EN : forall m, (m < length (gnitsam n d))%nat -> nth m (map (map g) (gnitsam n d)) [] = map g (nth m (gnitsam n d) []))
      by (intros m Hm; apply (map_nth (map g) (gnitsam n d) [] m)).
    rewrite !EN, E by easy. symmetry. apply exch_map. rewrite LT; [easy|now apply nth_In].
  - intros c. now apply monomial_span_exch.
Qed.

Example C30_example : exists fs, functions Rops (SimplexMonomial 2 1) = Ok fs
  /\ unisolvent fs (map (map (fun t => INR t / 1 * 2 - 1)) (gnitsam 1 2)).
Proof.
  eexists. split; [reflexivity|]. split; [reflexivity|]. intros c Hc k Hk.
  change (simplex_mode_tuples 2 1) with (gnitsam 1 2) in *.
  pose proof (Hc [0 / 1 * 2 - 1; 0 / 1 * 2 - 1] (or_introl eq_refl)) as A1.
  pose proof (Hc [1 / 1 * 2 - 1; 0 / 1 * 2 - 1] (or_intror (or_introl eq_refl))) as A2.
  pose proof (Hc [0 / 1 * 2 - 1; 1 / 1 * 2 - 1] (or_intror (or_intror (or_introl eq_refl)))) as A3.
  rewrite mono_lin in A1, A2, A3 by reflexivity.
  change (gnitsam 1 2) with [[0; 0]; [1; 0]; [0; 1]]%nat in A1, A2, A3.
  cbn [length rsum nth monoval pow] in A1, A2, A3.
  change (length (map (monomial Rops) (gnitsam 1 2))) with 3%nat in Hk.
  destruct k as [|[|[|k]]]; [lra|lra|lra|lia].
Qed.

Print Assumptions C26_exact.
Print Assumptions C26_square_only.
Print Assumptions C26_identity.
Print Assumptions C26_composition.
Print Assumptions C26_nonsquare.
Print Assumptions C26_singular.
Print Assumptions C26_least_squares.
Print Assumptions C27_exact.
Print Assumptions C27_mismatch.
Print Assumptions C27_basis.
Print Assumptions C28_mass.
Print Assumptions C28_lagrange.
Print Assumptions C28_for_space.
Print Assumptions C28_refused.
Print Assumptions C28_accepted.
Print Assumptions C29_test_matrix.
Print Assumptions C29_test_matrix_mapped.
Print Assumptions C29_bilinear.
Print Assumptions C29_equals_mass.
Print Assumptions C29_test_matrix_succeeds.
Print Assumptions C29_flat_refuted.
Print Assumptions C30_permutation.
Print Assumptions C30_exch_meaning.
Print Assumptions C30_keyerror.
Print Assumptions C30_matrices.
Print Assumptions C30_monomials.
