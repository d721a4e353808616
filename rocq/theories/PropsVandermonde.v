(** * C81: [vandermonde] called with scalar- and with tuple-returning functions *)
From Coquelicot Require Import Coquelicot.
From Coq Require Import List Arith Bool ZArith Reals Lra Lia FunctionalExtensionality.
From Verif Require Import Py PyToolsModel RSum RField ModelLinAlg ProofLinAlg ModelNd ModelShapes ModelSpaces ModelNodes ModelModes ModelBasis ModelQuad
  ModelMatrices ModelWarpBlend ModelEdgeNodes EnumFacts SpecIndex SpecGeometry SpecIntegral SpecPoly SpecPartial SpecSpan ProofNodeTuples ProofTPCall ProofTPNodes ProofMonomial ProofBasisDeriv
  ProofPKDO ProofTPOrtho ProofSpaces ProofBasisIndex ProofEquispaced ProofQuad ProofMatrices ProofMatrices2 ProofDiffPerm ProofMatrices3 ProofExchange
  ProofUnisolvent PropsBasis PropsMatrices PropsUnisolvent ProofSpaceNodes PropsEdgeNodes ProofGradGood ProofGradGood2 PropsGradGood ModelVandermonde.
Import ListNotations.
Local Open Scope R_scope.

(** With scalar functions only it is the Vandermonde matrix, *)
Theorem C81_scalar junk fs nodes :
  vandermonde_any junk (map inl fs) nodes = match vandermonde fs nodes with Ok V => Ok (inl V) | Err e => Err e end.
Proof.
  unfold vandermonde. assert (E : forall l : list nodal_fn, mapM (fun f => column f nodes) (map inl l) = mapM (fun f => mapM f nodes) l).
  { induction l as [|f l IH]; [reflexivity|]. cbn [map mapM column]. rewrite IH. reflexivity. }
  destruct fs as [|f fs]; [reflexivity|]. cbn [map vandermonde_any]. specialize (E (f :: fs)). cbn [map] in E. rewrite E. cbn [length]. rewrite map_length. destruct (mapM _ (f :: fs)) as [cols|e]; reflexivity.
Qed.

(** with tuple-returning functions only it is what [multi_vandermonde] returns, exceptions included. *)
Definition tuple_items (v : list (list R)) : nat * (nat -> nat -> option R) := (n_components v, fun c i => nth_error (nth i v []) c).
Lemma items_tuples (gs : list nodal_grad) nodes : mapM (fun f => items f nodes) (map inr gs) = match mapM (fun g => mapM g nodes) gs with Ok vals => Ok (map tuple_items vals) | Err e => Err e end.
Proof.
  induction gs as [|g gs IH]; [reflexivity|]. cbn [map mapM items]. rewrite IH. destruct (mapM g nodes) as [v|e]; cbn [bind]; [|reflexivity]. destruct (mapM (fun g => mapM g nodes) gs) as [vs|e]; reflexivity.
Qed.
Theorem C81_tuple junk gs nodes : gs <> [] ->
  vandermonde_any junk (map inr gs) nodes = match multi_vandermonde junk gs nodes with Ok Ms => Ok (inr Ms) | Err e => Err e end.
Proof.
  intros Hg. destruct gs as [|g gs]; [easy|]. cbn [map vandermonde_any]. unfold multi_vandermonde_any, multi_vandermonde. pose proof (items_tuples (g :: gs) nodes) as E. cbn [map] in E. rewrite E. cbn [mapM length].
  rewrite map_length. destruct (mapM g nodes) as [v|e]; cbn [bind]; [|reflexivity]. destruct (mapM (fun f => mapM f nodes) gs) as [vs|e]; cbn [bind]; [|reflexivity].
  set (vals := v :: vs). change (match map tuple_items vals with [] => 0%nat | it :: _ => fst it end) with (n_components v).
  assert (EX : existsb (fun it : nat * (nat -> nat -> option R) => (n_components v <? fst it)%nat) (map tuple_items vals) = existsb (fun w => (n_components v <? n_components w)%nat) vals).
  { clearbody vals. induction vals as [|w vals IH]; [reflexivity|]. cbn [map existsb]. now rewrite IH. }
  rewrite EX. destruct (existsb _ vals); cbn [bind]; [reflexivity|]. f_equal. f_equal. apply map_ext. intros c. f_equal. apply functional_extensionality. intros i. apply functional_extensionality. intros j.
  rewrite nth_error_map. destruct (nth_error vals j) as [w|] eqn:Ew; cbn [option_map].
  - rewrite (nth_error_nth _ _ _ Ew). unfold tuple_items. cbn [snd]. destruct (nth_error (nth i w []) c) as [t|] eqn:Et; [now rewrite (nth_error_nth _ _ _ Et)|]. apply nth_error_None in Et. now rewrite nth_overflow.
  - apply nth_error_None in Ew. rewrite (nth_overflow vals) by easy. destruct i, c; reflexivity.
Qed.
(** So for the gradients of a basis it returns one matrix per axis, with the partial derivatives of polynomials of the
    space that are the basis functions. *)
Theorem C81_gradients junk s sh b nodes : fits s sh -> offered s sh b -> nodes <> [] -> (forall x, In x nodes -> length x = spatial_dim s /\ good_point b x) ->
  exists fs gs phis Ms, functions Rops b = Ok fs /\ gradients Rops b = Ok gs /\ length phis = space_dim s
    /\ vandermonde_any junk (map inr gs) nodes = Ok (inr Ms) /\ length Ms = spatial_dim s
    /\ (forall M, In M Ms -> nrows M = length nodes /\ ncols M = space_dim s)
    /\ forall j f phi, nth_error fs j = Some f -> nth_error phis j = Some phi -> in_space s phi
         /\ forall i, (i < length nodes)%nat -> f (pt nodes i) = Ok (phi (pt nodes i)) /\ has_partials phi (pt nodes i) (map (fun M => ent M i j) Ms).
Proof.
  intros HF HO Hne Hx. destruct (C67_gradients s sh b HF HO) as (fs & gs & phis & Ef & Eg & Lf & Lg & Lp & H). exists fs, gs, phis.
  assert (HG : forall j x, (j < length gs)%nat -> In x nodes -> exists c, gfn gs j x = Ok c /\ length c = spatial_dim s).
  { intros j x Hj Hin. destruct (nth_error fs j) as [f|] eqn:E1; [|apply nth_error_None in E1; lia]. destruct (nth_error gs j) as [g|] eqn:E2; [|apply nth_error_None in E2; lia]. destruct (nth_error phis j) as [phi|] eqn:E3; [|apply nth_error_None in E3; lia].
    destruct (H j f g phi E1 E2 E3) as (_ & HH). destruct (Hx x Hin) as [Lx Gx]. destruct (HH x Lx Gx) as (_ & c & Ec & HP). exists c. unfold gfn. rewrite (nth_error_nth _ _ _ E2). split; [exact Ec|]. destruct HP as (L & _). congruence. }
  destruct (multi_vandermonde_ok junk gs nodes (spatial_dim s)) as (Ms & EM & LM & HM); [|easy|exact HG|].
  { intros ->. pose proof (space_dim_pos s). cbn in Lg. lia. }
  exists Ms. split; [exact Ef|]. split; [exact Eg|]. split; [exact Lp|]. split; [|split; [exact LM|split]].
  - rewrite C81_tuple, EM; [reflexivity|]. intros ->. pose proof (space_dim_pos s). cbn in Lg. lia.
  - intros M HMin. apply In_nth_error in HMin. destruct HMin as (a & Ea). destruct (HM a M Ea) as (A & B & _). split; [exact A|]. rewrite B. exact Lg.
  - intros j f phi E1 E3. assert (Hj : (j < length gs)%nat) by (assert (X : nth_error fs j <> None) by congruence; apply nth_error_Some in X; lia). destruct (nth_error gs j) as [g|] eqn:E2; [|apply nth_error_None in E2; lia].
    destruct (H j f g phi E1 E2 E3) as (HS & HH). split; [exact HS|]. intros i Hi. assert (Hin : In (pt nodes i) nodes) by (now apply pt_in). destruct (Hx _ Hin) as [Lx Gx]. destruct (HH _ Lx Gx) as (V & c & Ec & HP). split; [exact V|].
    assert (EC : map (fun M => ent M i j) Ms = c); [|now rewrite EC]. assert (Lc : length c = spatial_dim s) by (destruct HP as (L & _); congruence).
    apply nth_ext with 0 0; [rewrite map_length; lia|]. intros a Ha. rewrite map_length in Ha. destruct (nth_error Ms a) as [M|] eqn:Ea; [|apply nth_error_None in Ea; lia].
    rewrite (nth_error_nth _ _ 0 (map_nth_error (fun M => ent M i j) _ _ Ea)). destruct (HM a M Ea) as (_ & _ & HE). apply HE; [easy|easy|]. unfold gfn. now rewrite (nth_error_nth _ _ _ E2).
Qed.

(** ** Lists of both kinds are not refused in general: after a tuple of [length t] components, a scalar
    function on at most as many nodes fills its column of the c-th matrix with its value at the c-th node, whatever the row. *)
Theorem C81_mixed_refuted junk (g : nodal_grad) (f : nodal_fn) nodes vg vf : nodes <> [] -> mapM g nodes = Ok vg -> mapM f nodes = Ok vf ->
  (length nodes <= n_components vg)%nat ->
  exists Ms, vandermonde_any junk [inr g; inl f] nodes = Ok (inr Ms) /\ length Ms = n_components vg
    /\ forall c M i, nth_error Ms c = Some M -> (c < length nodes)%nat -> ent M i 1 = nth c vf 0.
Proof.
  intros Hne Eg Ef HL. cbn [vandermonde_any]. unfold multi_vandermonde_any. cbn [mapM items]. rewrite Eg. cbn [bind]. rewrite Ef. cbn [bind fst existsb length].
  destruct (Nat.ltb_spec (n_components vg) (n_components vg)); [lia|]. destruct (Nat.ltb_spec (n_components vg) (length nodes)); [lia|]. cbn [orb bind]. eexists. split; [reflexivity|].
  split; [now rewrite map_length, seq_length|]. intros c M i HM Hc. rewrite nth_error_map in HM. destruct (nth_error (seq 0 (n_components vg)) c) as [c'|] eqn:E; [|discriminate]. injection HM as <-.
  assert (c' = c). { assert (X : nth_error (seq 0 (n_components vg)) c <> None) by congruence. apply nth_error_Some in X. rewrite seq_length in X. apply nth_error_nth with (d := 0%nat) in E. rewrite seq_nth in E by easy. lia. }
  subst c'. cbn [ent nth_error snd]. pose proof (mapM_length _ _ _ Ef) as Lf. destruct (nth_error vf c) as [v|] eqn:Ev; [symmetry; now apply nth_error_nth|]. apply nth_error_None in Ev. lia.
Qed.
(** On more nodes the call raises IndexError; a tuple of other than one component after a scalar function raises ValueError. *)
Theorem C81_mixed_errors junk (g : nodal_grad) (f : nodal_fn) nodes vg vf : mapM g nodes = Ok vg -> mapM f nodes = Ok vf ->
  ((n_components vg < length nodes)%nat -> vandermonde_any junk [inr g; inl f] nodes = Err IndexError)
  /\ (n_components vg <> 1%nat -> vandermonde_any junk [inl f; inr g] nodes = Err ValueError).
Proof.
  intros Eg Ef. split; intros H.
  - cbn [vandermonde_any]. unfold multi_vandermonde_any. cbn [mapM items]. rewrite Eg. cbn [bind]. rewrite Ef. cbn [bind fst existsb].
    destruct (Nat.ltb_spec (n_components vg) (length nodes)); [|lia]. now rewrite orb_true_r.
  - cbn [vandermonde_any mapM column]. rewrite Ef, Eg. cbn [bind]. destruct (Nat.eqb_spec (n_components vg) 1); [lia|]. reflexivity.
Qed.

(** ** Non-vacuity: gradients of the cubics on two points of a triangle; the misplaced values of a mixed call *)
Example C81_example : exists b, offered (PN 2 3) (Simplex 2) b /\ fits (PN 2 3) (Simplex 2) /\ forall x, In x [[-1; 1]; [0; 0]] -> length x = 2%nat /\ good_point b x.
Proof.
  exists (SimplexONB 2 3). split; [right; left; split; [constructor; lia|reflexivity]|]. split; [constructor|].
  intros x [<-|[<-|[]]]; (split; [reflexivity|]); cbn [good_point nth]; [right; reflexivity|]. left. rewrite Rminus_0_l, Rabs_Ropp, Rabs_R1. apply Rmult_le_reg_l with (10 ^ 12); [lra|]. rewrite Rinv_r by lra. lra.
Qed.
Example C81_example_mixed : exists Ms M, vandermonde_any 0 [inr (fun x : list R => Ok x); inl (fun x : list R => Ok (nth 0 x 0))] [[1; 2]; [3; 4]] = Ok (inr Ms)
  /\ nth_error Ms 0 = Some M /\ ent M 0 1 = 1 /\ ent M 1 1 = 1.
Proof.
  destruct (C81_mixed_refuted 0 (fun x => Ok x) (fun x => Ok (nth 0 x 0)) [[1; 2]; [3; 4]] [[1; 2]; [3; 4]] [1; 3]) as (Ms & E & L & H); try easy.
  destruct Ms as [|M Ms]; [discriminate|]. exists (M :: Ms), M. split; [exact E|]. split; [reflexivity|]. rewrite !(H 0%nat M) by (try reflexivity; cbn; lia). split; reflexivity.
Qed.

Print Assumptions C81_scalar.
Print Assumptions C81_tuple.
Print Assumptions C81_gradients.
Print Assumptions C81_mixed_refuted.
Print Assumptions C81_mixed_errors.
