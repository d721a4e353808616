(** * C69: the deprecated quadrature mass matrices agree with their replacements *)
From Coquelicot Require Import Coquelicot.
From Coq Require Import List Arith Bool ZArith Reals Lra Lia.
From Verif Require Import Py PyToolsModel RSum IntFacts RField ModelLinAlg ProofLinAlg ModelNd ModelShapes ModelSpaces ModelNodes ModelModes ModelBasis ModelQuad
  ModelMatrices ModelFaces ModelMatricesDeprecated EnumFacts SpecGeometry SpecFaces SpecIntegral SpecPartial SpecSpan ProofFaces ProofFaces2 PropsFaces
  ProofMatrices ProofMatrices2 PropsMatrices ProofDeprecated ProofDeprecated2 ProofDivergence.
Import ListNotations.
Local Open Scope R_scope.

(** ** The three nodal functions are their documented replacements, errors included *)
Theorem C69_quad_mass q fs nodes : length (q_weights q) = length (q_nodes q) ->
  nodal_quad_mass_matrix q fs nodes = nodal_quadrature_test_matrix q fs fs nodes None.
Proof.
  intros L. unfold nodal_quad_mass_matrix, nodal_quadrature_test_matrix.
  destruct (match nodes with Some n => Ok n | None => if q_flat q then Err IndexError else Ok (q_nodes q) end) as [nds|]; [|reflexivity]. cbn [bind].
  destruct (negb (length fs =? length nds)); [reflexivity|]. destruct (vandermonde fs nds) as [vdm|]; [|reflexivity]. cbn [bind].
  exact (solve_rows (mT vdm) fs (q_nodes q) (q_weights q) L).
Qed.
Theorem C69_quad_mass_face f q fs nodes : length (q_weights q) = length (q_nodes q) -> q_flat q = false ->
  nodal_quad_mass_matrix_for_face f q fs nodes = nodal_quadrature_test_matrix q fs fs (Some nodes) (Some (map_to_volume f)).
Proof.
  intros L HQ. unfold nodal_quad_mass_matrix_for_face, nodal_quadrature_test_matrix. cbn [bind].
  destruct (negb (length fs =? length nodes)); [reflexivity|]. destruct (vandermonde fs nodes) as [vdm|]; [|reflexivity]. cbn [bind].
  unfold modal_quad_mass_matrix_for_face, face_quad_nodes. rewrite HQ. destruct (mapM (map_to_volume f) (q_nodes q)) as [tn|] eqn:E; [|reflexivity]. cbn [bind].
  apply (solve_rows (mT vdm) fs tn (q_weights q)). apply mapM_length in E. lia.
Qed.
(** For functions that evaluate: with as many face nodes as trial functions and volume nodes as test functions. *)
Theorem C69_face_mass f q trials tests vol fac tn : length (q_weights q) = length (q_nodes q) -> q_flat q = false ->
  mapM (map_to_volume f) (q_nodes q) = Ok tn ->
  defined_on tests tn -> defined_on tests vol -> defined_on trials (q_nodes q) -> defined_on trials fac ->
  length trials = length fac -> length tests = length vol ->
  nodal_mass_matrix_for_face f q trials tests vol fac
  = nodal_quadrature_bilinear_form_matrix q tests trials tests trials fac (Some vol) (Some (map_to_volume f)).
Proof.
  intros L HQ ET D1 D2 D3 D4 L1 L2. pose proof (mapM_length _ _ _ ET) as LT. unfold nodal_mass_matrix_for_face, nodal_quadrature_bilinear_form_matrix.
  destruct (vandermonde_succeeds _ _ D4) as (FV & EF). destruct (vandermonde_succeeds _ _ D2) as (VV & EV).
  destruct (vandermonde_succeeds _ _ D1) as (T & ETv). destruct (vandermonde_succeeds _ _ D3) as (U & EU).
  destruct (vandermonde_inv _ _ _ EF) as (RF & CF & _). destruct (vandermonde_inv _ _ _ ETv) as (RT & CT & HT & _). destruct (vandermonde_inv _ _ _ EU) as (RU & CU & HU & _).
  rewrite EF, EV, ET. cbn [bind]. rewrite ETv. cbn [bind]. rewrite EU. cbn [bind].
  replace (nrows FV =? ncols FV)%nat with true by (symmetry; apply Nat.eqb_eq; congruence).
  replace (length tests =? length vol)%nat with true by (symmetry; apply Nat.eqb_eq; congruence).
  replace (length trials =? length fac)%nat with true by (symmetry; apply Nat.eqb_eq; congruence). cbn [negb].
  unfold einsum3. replace (nrows T =? nrows U)%nat with true by (symmetry; apply Nat.eqb_eq; congruence).
  replace (nrows T =? length (q_weights q))%nat with true by (symmetry; apply Nat.eqb_eq; congruence). cbn [andb bind].
  destruct (np_inv FV) as [P|] eqn:EP; [|reflexivity]. cbn [bind].
  unfold modal_mass_matrix_for_face, face_quad_nodes. rewrite HQ, ET. cbn [bind].
  destruct (modal_face_ok tests trials tn (q_nodes q) (q_weights q) LT L D1 D3) as (rows & ER & HR). rewrite ER. cbn [bind].
  unfold mdot. cbn [mat_of_rows nrows ncols ent]. rewrite CU.
  destruct (length trials =? nrows P)%nat; [|reflexivity]. cbn [bind]. apply np_solve_ext; cbn [nrows ncols ent]; [congruence|reflexivity|].
  intros i j Hi Hj. apply rsum_ext. intros k Hk. f_equal. rewrite HR by easy. rewrite RT, LT. apply rsum_ext. intros l Hl.
  rewrite HT, HU by (try easy; congruence). reflexivity.
Qed.

(** ** What the matrices are *)
(** Entry (i, k): the i-th function at the k-th node times the k-th weight. *)
Theorem C69_modal q fs M : length (q_weights q) = length (q_nodes q) -> modal_quad_mass_matrix q fs = Ok M ->
  nrows M = length fs /\ ncols M = length (q_nodes q) /\ defined_on fs (q_nodes q)
  /\ forall i (u : list R -> R), (i < length fs)%nat ->
       q_call q (fun x => Ok (fn fs i x * u x)) = Ok (rsum (fun k => ent M i k * u (pt (q_nodes q) k)) (length (q_nodes q))).
Proof.
  intros L E. unfold modal_quad_mass_matrix in E. rewrite scaled_rows in E by exact L.
  destruct (mapM (fun f => mapM f (q_nodes q)) fs) as [cols|] eqn:EC; [|discriminate]. cbn [bind] in E. injection E as <-. cbn [mat_of_rows nrows ncols ent].
  assert (EV : vandermonde fs (q_nodes q) = Ok (mat_of_cols (length (q_nodes q)) (length fs) cols)) by (unfold vandermonde; rewrite EC; reflexivity).
  destruct (vandermonde_inv _ _ _ EV) as (_ & _ & HV & HD). split; [easy|]. split; [exact L|]. split; [exact HD|]. intros i u Hi.
  rewrite (q_call_rsum q (fun x => fn fs i x * u x)) by exact L. f_equal. apply rsum_ext. intros k Hk. specialize (HV k i Hk Hi). cbn [mat_of_cols ent] in HV. unfold V in HV. rewrite <- HV.
  pose proof (mapM_length _ _ _ EC) as LC.
  rewrite (nth_indep (map (fun v => map2 Rmult v (q_weights q)) cols) [] (map2 Rmult [] (q_weights q))) by (rewrite map_length; exact (eq_ind_r (fun z => (i < z)%nat) Hi LC)).
  rewrite (map_nth (fun v => map2 Rmult v (q_weights q))).
  destruct (nth_error cols i) as [v|] eqn:Ev; [|apply nth_error_None in Ev; lia].
  destruct (ProofMatrices2.mapM_nth _ _ _ EC i v Ev) as (g & _ & Eg). apply mapM_length in Eg. rewrite (nth_error_nth _ _ _ Ev). rewrite map2_nth by lia. ring.
Qed.
(** Entry (i, j): the rule applied to the i-th test function on the face times the j-th trial function. *)
Theorem C69_modal_face f q trials tests tn : length (q_weights q) = length (q_nodes q) -> q_flat q = false ->
  mapM (map_to_volume f) (q_nodes q) = Ok tn -> defined_on tests tn -> defined_on trials (q_nodes q) ->
  exists M, modal_mass_matrix_for_face f q trials tests = Ok M /\ nrows M = length tests /\ ncols M = length trials
    /\ forall i j, (i < length tests)%nat -> (j < length trials)%nat ->
         q_call q (fun x => Ok (fn tests i (image f x) * fn trials j x)) = Ok (ent M i j).
Proof.
  intros L HQ ET D1 D2. pose proof (mapM_length _ _ _ ET) as LT.
  destruct (modal_face_ok tests trials tn (q_nodes q) (q_weights q) LT L D1 D2) as (rows & ER & HR).
  exists (mat_of_rows (length tests) (length trials) rows). split.
  { unfold modal_mass_matrix_for_face, face_quad_nodes. rewrite HQ, ET. cbn [bind]. rewrite ER. reflexivity. }
  split; [reflexivity|]. split; [reflexivity|]. intros i j Hi Hj. cbn [mat_of_rows ent]. rewrite HR by easy.
  rewrite (q_call_rsum q (fun x => fn tests i (image f x) * fn trials j x)) by exact L. f_equal. apply rsum_ext. intros k Hk. unfold V.
  assert (Ep : pt tn k = image f (pt (q_nodes q) k)).
  { destruct (nth_error tn k) as [y|] eqn:Ey; [|apply nth_error_None in Ey; lia]. destruct (ProofMatrices2.mapM_nth _ _ _ ET k y Ey) as (x & Ex & E1).
    unfold pt. rewrite (nth_error_nth _ _ _ Ey), (nth_error_nth _ _ _ Ex). unfold image. now rewrite E1. }
  rewrite Ep. ring.
Qed.

(** The nodal face mass matrix, between nodal values of test combinations in the volume and of trial
    combinations on the face, is the rule on the face. *)
Theorem C69_face_pairing f q trials tests vol fac A : length (q_weights q) = length (q_nodes q) -> q_flat q = false ->
  nodal_quadrature_bilinear_form_matrix q tests trials tests trials fac (Some vol) (Some (map_to_volume f)) = Ok A ->
  nrows A = length vol /\ ncols A = length fac
  /\ forall c d, q_call q (fun x => Ok (lin tests c (image f x) * lin trials d x))
       = Ok (rsum (fun i => lin tests c (pt vol i) * rsum (fun j => ent A i j * lin trials d (pt fac j)) (length fac)) (length vol)).
Proof.
  intros L HQ E. destruct (bilinear_ok q tests trials tests trials fac (Some vol) _ A E) as (tn & Et & Lt & Lw & Li & Lj & Ltt & Ltr & RA & CA & H).
  cbv beta iota in Et. split; [easy|]. split; [easy|]. intros c d.
  assert (Ep : forall k, (k < length (q_nodes q))%nat -> pt tn k = image f (pt (q_nodes q) k)).
  { intros k Hk. destruct (nth_error tn k) as [y|] eqn:Ey; [|apply nth_error_None in Ey; lia]. destruct (ProofMatrices2.mapM_nth _ _ _ Et k y Ey) as (x & Ex & E1).
    unfold pt. rewrite (nth_error_nth _ _ _ Ey), (nth_error_nth _ _ _ Ex). unfold image. now rewrite E1. }
  rewrite (q_call_rsum q (fun x => lin tests c (image f x) * lin trials d x)) by easy. f_equal. symmetry.
  rewrite (rsum_ext _ (fun i => rsum (fun a => V tests vol i a * c a) (length tests)
     * rsum (fun j => ent A i j * rsum (fun b => V trials fac j b * d b) (length trials)) (length fac))).
  2:{ intros i _. rewrite lin_V. f_equal. apply rsum_ext. intros j _. now rewrite lin_V. }
  rewrite rsum_double.
  rewrite (rsum_ext _ (fun a => rsum (fun b => rsum (fun k =>
     c a * d b * (V tests tn k a * V trials (q_nodes q) k b * nth k (q_weights q) 0)) (length (q_nodes q))) (length trials))).
  2:{ intros a Ha. apply rsum_ext. intros b Hb. rewrite H by easy. now rewrite rsum_scal. }
  rewrite (rsum_ext _ (fun a => rsum (fun k => rsum (fun b =>
     c a * d b * (V tests tn k a * V trials (q_nodes q) k b * nth k (q_weights q) 0)) (length trials))
     (length (q_nodes q)))) by (intros; apply rsum_swap).
  rewrite rsum_swap. apply rsum_ext. intros k Hk. unfold lin.
  rewrite <- rsum_scal_r, <- rsum_scal. apply rsum_ext. intros a _.
  rewrite <- rsum_scal, <- rsum_scal. apply rsum_ext. intros b _. unfold V. rewrite Ep by easy. ring.
Qed.

(** ** Success and refusals *)
Theorem C69_face_succeeds f q trials tests vol fac tn : length (q_weights q) = length (q_nodes q) -> q_flat q = false ->
  mapM (map_to_volume f) (q_nodes q) = Ok tn ->
  defined_on tests tn -> defined_on tests vol -> defined_on trials (q_nodes q) -> defined_on trials fac ->
  unisolvent trials fac -> unisolvent tests vol -> exists A, nodal_mass_matrix_for_face f q trials tests vol fac = Ok A.
Proof.
  intros L HQ ET D1 D2 D3 D4 [L1 I1] [L2 I2]. rewrite (C69_face_mass f q trials tests vol fac tn) by assumption. pose proof (mapM_length _ _ _ ET) as LT.
  destruct (vandermonde_succeeds _ _ D4) as (FV & EF). destruct (vandermonde_succeeds _ _ D2) as (VV & EV).
  destruct (vandermonde_succeeds _ _ D1) as (T & ETv). destruct (vandermonde_succeeds _ _ D3) as (U & EU).
  destruct (vandermonde_inv _ _ _ EF) as (RF & CF & _). destruct (vandermonde_inv _ _ _ EV) as (RV & CV & _).
  destruct (vandermonde_inv _ _ _ ETv) as (RT & CT & HT & _). destruct (vandermonde_inv _ _ _ EU) as (RU & CU & HU & _).
  unfold nodal_quadrature_bilinear_form_matrix. rewrite L1, L2, !Nat.eqb_refl. cbn [negb]. rewrite ET. cbn [bind]. rewrite ETv. cbn [bind]. rewrite EU. cbn [bind].
  unfold einsum3. replace (nrows T =? nrows U)%nat with true by (symmetry; apply Nat.eqb_eq; congruence).
  replace (nrows T =? length (q_weights q))%nat with true by (symmetry; apply Nat.eqb_eq; congruence). cbn [andb bind]. rewrite EF, EV. cbn [bind].
  assert (NF : nonsing (nrows FV) (ent FV)) by (now apply (nonsing_V _ _ _ EF L1)).
  assert (NV : nonsing (nrows VV) (ent VV)) by (now apply (nonsing_V _ _ _ EV L2)).
  destruct (@np_inv_succeeds FV) as (P & EP); [congruence|easy|]. rewrite EP. cbn [bind]. destruct (np_inv_ok EP) as (_ & P2 & P3 & _).
  unfold mdot. cbn [nrows ncols]. replace (ncols U =? nrows P)%nat with true by (symmetry; apply Nat.eqb_eq; congruence). cbn [bind].
  apply np_solve_succeeds; cbn [mT nrows ncols ent]; [congruence|congruence|]. rewrite CV, L2, <- RV. now apply (proj1 (nonsing_tr _ _)).
Qed.
(** Wrong numbers of nodes.  The volume side of [nodal_mass_matrix_for_face] is left to [la.solve]: LinAlgError
    where the replacement raises ValueError. *)
Theorem C69_refused f q trials tests vol fac : 
  (length tests <> length vol -> nodal_quad_mass_matrix q tests (Some vol) = Err ValueError
     /\ nodal_quad_mass_matrix_for_face f q tests vol = Err ValueError)
  /\ (defined_on trials fac -> defined_on tests vol -> length trials <> length fac ->
        nodal_mass_matrix_for_face f q trials tests vol fac = Err ValueError)
  /\ (q_flat q = true -> nodal_quad_mass_matrix q tests None = Err IndexError /\ modal_quad_mass_matrix_for_face f q tests = Err ValueError
        /\ modal_mass_matrix_for_face f q trials tests = Err ValueError).
Proof.
  split; [|split].
  - intros H. apply Nat.eqb_neq in H. unfold nodal_quad_mass_matrix, nodal_quad_mass_matrix_for_face. cbn [bind]. rewrite H. split; reflexivity.
  - intros D1 D2 H. unfold nodal_mass_matrix_for_face. destruct (vandermonde_succeeds _ _ D1) as (FV & EF). destruct (vandermonde_succeeds _ _ D2) as (VV & EV).
    destruct (vandermonde_inv _ _ _ EF) as (RF & CF & _). rewrite EF, EV. cbn [bind]. rewrite RF, CF.
    replace (length fac =? length trials)%nat with false by (symmetry; apply Nat.eqb_neq; congruence). reflexivity.
  - intros H. unfold nodal_quad_mass_matrix, modal_quad_mass_matrix_for_face, modal_mass_matrix_for_face, face_quad_nodes. rewrite H. repeat split.
Qed.
Theorem C69_volume_mismatch f q trials tests vol fac tn : length (q_weights q) = length (q_nodes q) -> q_flat q = false ->
  mapM (map_to_volume f) (q_nodes q) = Ok tn ->
  defined_on tests tn -> defined_on tests vol -> defined_on trials (q_nodes q) -> defined_on trials fac ->
  unisolvent trials fac -> length tests <> length vol ->
  nodal_mass_matrix_for_face f q trials tests vol fac = Err LinAlgError
  /\ nodal_quadrature_bilinear_form_matrix q tests trials tests trials fac (Some vol) (Some (map_to_volume f)) = Err ValueError.
Proof.
  intros L HQ ET D1 D2 D3 D4 [L1 I1] L2. split.
  - destruct (vandermonde_succeeds _ _ D4) as (FV & EF). destruct (vandermonde_succeeds _ _ D2) as (VV & EV).
    destruct (vandermonde_inv _ _ _ EF) as (RF & CF & _). destruct (vandermonde_inv _ _ _ EV) as (RV & CV & _).
    destruct (C69_modal_face f q trials tests tn L HQ ET D1 D3) as (M & EM & R1 & C1 & _).
    unfold nodal_mass_matrix_for_face. rewrite EF, EV. cbn [bind].
    replace (nrows FV =? ncols FV)%nat with true by (symmetry; apply Nat.eqb_eq; congruence). cbn [negb].
    assert (NF : nonsing (nrows FV) (ent FV)) by (now apply (nonsing_V _ _ _ EF L1)).
    destruct (@np_inv_succeeds FV) as (P & EP); [congruence|easy|]. rewrite EP. cbn [bind]. destruct (np_inv_ok EP) as (_ & P2 & P3 & _). rewrite EM. cbn [bind].
    unfold mdot. replace (ncols M =? nrows P)%nat with true by (symmetry; apply Nat.eqb_eq; congruence). cbn [bind].
    unfold np_solve. cbn [mT nrows ncols]. replace (ncols VV =? nrows VV)%nat with false by (symmetry; apply Nat.eqb_neq; congruence). reflexivity.
  - unfold nodal_quadrature_bilinear_form_matrix. replace (length tests =? length vol)%nat with false by (symmetry; apply Nat.eqb_neq; congruence). reflexivity.
Qed.

(** ** Non-vacuity: the slanted face of the triangle, linear functions, vertices as nodes, the two-point Gauss rule *)
Definition ex_tests : list (list R -> res R) := [fun _ => Ok 1; fun x => Ok (nth 0 x 0); fun x => Ok (nth 1 x 0)].
Definition ex_vol : list (list R) := [[-1; -1]; [1; -1]; [-1; 1]].
Definition ex_fac : list (list R) := [[-1]; [1]].
Example C69_example : exists f tn, nth_error simplex2_faces 2 = Some f
  /\ length (q_weights ex_quad) = length (q_nodes ex_quad) /\ q_flat ex_quad = false
  /\ mapM (map_to_volume f) (q_nodes ex_quad) = Ok tn /\ tn = [[/ sqrt 3; - / sqrt 3]; [- / sqrt 3; / sqrt 3]]
  /\ defined_on ex_tests tn /\ defined_on ex_tests ex_vol /\ defined_on ex_fs (q_nodes ex_quad) /\ defined_on ex_fs ex_fac
  /\ unisolvent ex_fs ex_fac /\ unisolvent ex_tests ex_vol.
Proof.
  assert (DT : forall xs, defined_on ex_tests xs). { intros xs g x [<-|[<-|[<-|[]]]] _; eauto. }
  eexists. eexists. split; [reflexivity|]. split; [reflexivity|]. split; [reflexivity|]. split; [reflexivity|]. split.
  - cbn [length Nat.sub seq map]. unfold affine_image, vadd, vsub, map2, half. cbn. assert (sqrt 3 <> 0) by (apply Rgt_not_eq, sqrt_lt_R0; lra). repeat f_equal; field; assumption.
  - split; [apply DT|]. split; [apply DT|]. split; [apply ex_defined|]. split; [apply ex_defined|]. split.
    + split; [reflexivity|]. apply (ex_indep (-1) 1); [now left|right; now left|lra].
    + split; [reflexivity|]. intros c Hc. assert (A := Hc [-1; -1] ltac:(now left)). assert (B := Hc [1; -1] ltac:(right; now left)). assert (C := Hc [-1; 1] ltac:(right; right; now left)).
      unfold lin, fn, valR, ex_tests in A, B, C. cbn [length rsum nth] in A, B, C. intros [|[|[|k]]] Hk; cbn in Hk; try lia; lra.
Qed.

Print Assumptions C69_quad_mass.
Print Assumptions C69_quad_mass_face.
Print Assumptions C69_face_mass.
Print Assumptions C69_modal.
Print Assumptions C69_modal_face.
Print Assumptions C69_face_pairing.
Print Assumptions C69_face_succeeds.
Print Assumptions C69_refused.
Print Assumptions C69_volume_mismatch.
