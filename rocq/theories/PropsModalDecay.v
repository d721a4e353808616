(** * Properties C45, C46, C55 of modepy/modal_decay.py *)
From Coquelicot Require Import Coquelicot.
From Coq Require Import List Arith Bool ZArith Reals Lra Lia Sorted.
From Verif Require Import Py PyToolsModel RSum RField ModelLinAlg ProofLinAlg ModelNd ModelShapes ModelSpaces ModelModes ModelBasis ModelQuad
  ModelMatrices ModelModalDecay EnumFacts SpecIndex SpecPoly SpecPartial SpecSpan ProofNodeTuples ProofBasisIndex ProofMatrices
  ProofMonomial ProofModalDecay.
Import ListNotations.
Local Open Scope R_scope.

(** ** C45 *)
Theorem C45_row (row : list R) : (2 <= length row)%nat ->
  exists r, skyline_row row = Ok r /\ length r = length row
    /\ (forall i j, (i <= j < length row)%nat -> nth j r 0 <= nth i r 0)
    /\ (forall i, (i < length row)%nat -> nth i row 0 <= nth i r 0)
    /\ nth (length row - 1) r 0 = Rmax (nth (length row - 1) row 0) (nth (length row - 2) row 0)
    (** least: any non-increasing majorant is at least the result before the last entry *)
    /\ forall g : nat -> R, (forall i j, (i <= j < length row)%nat -> g j <= g i) ->
         (forall i, (i < length row)%nat -> nth i row 0 <= g i) ->
         forall i, (i < length row - 1)%nat -> nth i r 0 <= g i.
Proof.
  intros HL. set (n := length row) in *. unfold skyline_row.
  assert (RN : forall i, (i < n)%nat -> nth i (rev row) 0 = nth (n - 1 - i) row 0).
  { intros i Hi. rewrite rev_nth by easy. f_equal. unfold n. lia. }
  pose proof (rev_length row) as RL. fold n in RL.
  destruct (rev row) as [|a [|b t]] eqn:ER; [cbn in RL; lia|cbn in RL; lia|].
  set (rv := a :: b :: t) in *.
  assert (Ea : a = nth (n - 1) row 0) by (specialize (RN 0%nat ltac:(lia)); cbn [nth rv] in RN; now rewrite Nat.sub_0_r in RN).
  assert (Eb : b = nth (n - 2) row 0).
  { specialize (RN 1%nat ltac:(lia)). cbn [nth rv] in RN. rewrite RN. f_equal. lia. }
  set (s := sky_from (Rmax a b) rv).
  assert (SL : length s = n) by (unfold s; now rewrite sky_from_length).
  assert (SN : forall i, (i < n)%nat -> nth i (rev s) 0 = nth (n - 1 - i) s 0).
  { intros i Hi. rewrite rev_nth by lia. f_equal. lia. }
  exists (rev s). split; [reflexivity|]. split; [now rewrite rev_length|]. split; [|split; [|split]].
  - intros i j Hij. rewrite !SN by lia. apply sky_from_mono. lia.
  - intros i Hi. rewrite SN by lia. replace (nth i row 0) with (nth (n - 1 - i) rv 0).
    + apply sky_from_ge. lia.
    + rewrite RN by lia. f_equal. lia.
  - rewrite SN by lia. replace (n - 1 - (n - 1))%nat with 0%nat by lia.
    unfold s, rv. cbn [sky_from nth]. rewrite <- Ea, <- Eb.
    rewrite Rmax_left; [reflexivity|apply Rmax_l].
  - intros g Hg Hrow i Hi. rewrite SN by lia.
    set (h := fun k => if (k =? 0)%nat then Rmax (g (n - 1)%nat) (nth (n - 2) row 0) else g (n - 1 - k)%nat).
    assert (LE : nth (n - 1 - i) s 0 <= h (n - 1 - i)%nat).
    { unfold s. apply sky_from_least; [| | |lia].
      - intros k Hk. rewrite RL in Hk. rewrite Ea, Eb. unfold h. destruct (Nat.eqb_spec k 0) as [->|].
        + apply Rmax_lub; [|apply Rmax_r]. eapply Rle_trans; [|apply Rmax_l]. apply Hrow. lia.
        + apply Rmax_lub.
          * eapply Rle_trans; [apply Hrow; lia|]. apply Hg. lia.
          * eapply Rle_trans; [apply Hrow; lia|]. apply Hg. lia.
      - intros k Hk. rewrite RL in Hk. rewrite RN by easy. unfold h. destruct (Nat.eqb_spec k 0) as [->|].
        + rewrite Nat.sub_0_r. eapply Rle_trans; [|apply Rmax_l]. apply Hrow. lia.
        + apply Hrow. lia.
      - intros k k' Hk. rewrite RL in Hk. unfold h. destruct (Nat.eqb_spec k 0) as [->|], (Nat.eqb_spec k' 0) as [->|]; try lia; try lra.
        + apply Rmax_lub; [apply Hg; lia|]. eapply Rle_trans; [apply Hrow; lia|]. apply Hg. lia.
        + apply Hg. lia. }
    unfold h in LE. destruct (Nat.eqb_spec (n - 1 - i) 0); [lia|]. replace (n - 1 - (n - 1 - i))%nat with i in LE by lia. exact LE.
Qed.
(** Rows are independent; a row with fewer than two modes is an IndexError. *)
Theorem C45_rows rows res : skyline_pessimize rows = Ok res <->
  Forall2 (fun row r => skyline_row row = Ok r) rows res.
Proof.
  unfold skyline_pessimize. split.
  - revert res. induction rows as [|row rows IH]; intros res E; cbn [mapM] in E; [injection E as <-; constructor|].
    destruct (skyline_row row) as [r|] eqn:Er; [|discriminate]. cbn [bind] in E.
    destruct (mapM skyline_row rows) as [rs|] eqn:Ers; [|discriminate]. injection E as <-. constructor; auto.
  - induction 1 as [|row r rows rs Hr _ IH]; [reflexivity|]. cbn [mapM]. rewrite Hr. cbn [bind]. now rewrite IH.
Qed.
Theorem C45_short row rows : (length row < 2)%nat ->
  skyline_row row = Err IndexError /\ (In row rows -> skyline_pessimize rows = Err IndexError).
Proof.
  intros H. assert (E : skyline_row row = Err IndexError) by (destruct row as [|a [|b row]]; cbn in H; try lia; reflexivity).
  split; [easy|]. unfold skyline_pessimize. intros Hin. induction rows as [|r rows IH]; [easy|]. cbn [mapM].
  destruct Hin as [->|Hin]; [now rewrite E|]. destruct (skyline_row r) as [v|e] eqn:Er; cbn [bind].
  - now rewrite IH.
  - f_equal. unfold skyline_row in Er. destruct (rev r) as [|a [|b t]]; congruence.
Qed.
Example C45_example : (2 <= length [3; 1; 2])%nat /\ skyline_row [3; 1; 2] = Ok [3; 2; 2].
Proof.
  split; [cbn; lia|]. unfold skyline_row. cbn [rev app sky_from].
  rewrite (Rmax_left 2 1) by lra. rewrite (Rmax_left 2 2) by lra. rewrite (Rmax_left 2 1) by lra.
  rewrite (Rmax_right 2 3) by lra. reflexivity.
Qed.

(** ** C46 *)
Theorem C46_estimator b fs nodes k : onb_dims 0 3 b -> tp_nonempty b -> functions Rops b = Ok fs ->
  defined_on fs nodes -> unisolvent fs nodes ->
  exists dv C idxs mx, degree_vector b = Ok dv /\ length dv = length fs
    /\ In mx dv /\ (forall d, In d dv -> (d <= mx)%nat)
    /\ interp_error_coefficient_estimator_matrix nodes k b = Ok C
    /\ StronglySorted lt idxs
    /\ (forall m, In m idxs <-> (m < length fs)%nat /\ (Z.of_nat mx - Z.of_nat k < Z.of_nat (nth m dv 0%nat))%Z)
    /\ nrows C = length idxs
    /\ forall c r, (r < length idxs)%nat ->
         rsum (fun i => ent C r i * lin fs c (pt nodes i)) (length nodes) = c (nth r idxs 0%nat).
Proof.
  intros Ho Hn Ef HD [HL HI].
  destruct (degree_vector_size b Ho Hn) as (dv & Ed & Ld).
  destruct (functions_size Rops b Ho) as (fs' & Ef' & Lf). assert (fs' = fs) by congruence. subst fs'.
  assert (Ldf : length dv = length fs) by (rewrite Ld; symmetry; exact Lf).
  pose proof (basis_size_pos b) as Hpos.
  assert (Hdv : dv <> []) by (intros ->; cbn in Ld; lia).
  destruct (vandermonde_succeeds _ _ HD) as (A & EA).
  destruct (vandermonde_inv _ _ _ EA) as (RA & CA & HA & _).
  destruct (@np_inv_succeeds A) as (X & EX); [congruence|now apply (nonsing_V _ _ _ EA HL)|].
  destruct (np_inv_ok EX) as (_ & RX & CX & _).
  set (mx := maximum dv).
  set (mask := map (fun d => (Z.of_nat mx - Z.of_nat k <? Z.of_nat d)%Z) dv).
  set (idxs := filter (fun i => nth i mask false) (seq 0 (nrows X))).
  exists dv, (mkMat (length idxs) (ncols X) (fun r j => ent X (nth r idxs 0%nat) j)), idxs, mx.
  split; [easy|]. split; [easy|]. split; [now apply maximum_in|]. split; [apply maximum_ge|].
  assert (IN : forall m, In m idxs <-> (m < length fs)%nat /\ (Z.of_nat mx - Z.of_nat k < Z.of_nat (nth m dv 0%nat))%Z).
  { intros m. unfold idxs. rewrite filter_In, in_seq, RX, RA, <- HL.
    assert (EM : (m < length fs)%nat -> nth m mask false = (Z.of_nat mx - Z.of_nat k <? Z.of_nat (nth m dv 0%nat))%Z).
    { intros Hm. unfold mask. rewrite (nth_indep _ false (Z.of_nat mx - Z.of_nat k <? Z.of_nat 0)%Z) by (rewrite map_length; lia).
      apply (map_nth (fun d => (Z.of_nat mx - Z.of_nat k <? Z.of_nat d)%Z)). }
    split.
    - intros [[_ Hm] Hb]. cbn in Hm. split; [easy|]. rewrite EM in Hb by easy. now apply Z.ltb_lt.
    - intros [Hm Hb]. split; [split; [lia|easy]|]. rewrite EM by easy. now apply Z.ltb_lt. }
  split.
  - unfold interp_error_coefficient_estimator_matrix. rewrite Ef. cbn [bind]. rewrite EA. cbn [bind]. rewrite EX. cbn [bind].
    rewrite Ed. cbn [bind]. rewrite py_max_nat_ok by easy. cbn [bind]. fold mx. fold mask.
    unfold mrows. assert (LM : length mask = nrows X) by (unfold mask; rewrite map_length, RX, RA; exact (eq_trans Ldf HL)).
    rewrite LM, Nat.eqb_refl. reflexivity.
  - split; [apply sorted_filter_seq|]. split; [exact IN|]. split; [reflexivity|].
    intros c r Hr. cbn [ent]. apply (inv_coeffs fs nodes A X c EA EX HL).
    apply (IN (nth r idxs 0%nat)). now apply nth_In.
Qed.
(** degree_vector: total degree for simplices, maximal factor degree for products. *)
Theorem C46_degree_simplex d n k e : nth_error (simplex_mode_tuples d n) k = Some e ->
  (exists dv, degree_vector (SimplexONB d n) = Ok dv /\ degree_vector (SimplexMonomial d n) = Ok dv
     /\ nth_error dv k = Some (total e))
  /\ exists f, nth_error (map (monomial Rops) (simplex_mode_tuples d n)) k = Some f
     /\ (forall x, length x = d -> f x = Ok (monoval e x))
     (** monomials of total degree [total e]: homogeneous *)
     /\ forall t x, length x = d -> monoval e (map (Rmult t) x) = t ^ total e * monoval e x.
Proof.
  intros E. assert (He : length e = d).
  { apply nth_error_In in E. unfold simplex_mode_tuples in E. now apply gnitsam_in in E. }
  split.
  - eexists. split; [reflexivity|]. split; [reflexivity|]. rewrite nth_error_map, E. reflexivity.
  - exists (monomial Rops e). rewrite nth_error_map, E. split; [reflexivity|]. split.
    + intros x Hx. apply monomial_val. congruence.
    + intros t x Hx. rewrite <- He in Hx. clear -Hx. revert x Hx.
      induction e as [|a e IH]; intros [|y x] H; try discriminate.
      * unfold total. cbn. ring.
      * cbn [monoval map]. cbn in H. rewrite IH by lia. unfold total. cbn [fold_right]. fold (total e).
        rewrite Rpow_mult_distr, pow_add. ring.
Qed.
Theorem C46_degree_product bs dims dvs : bs <> [] -> Forall (onb_dims 0 3) bs -> Forall tp_nonempty bs ->
  Forall2 (fun b dv => degree_vector b = Ok dv) bs dvs ->
  exists dv, degree_vector (TPBasis bs dims) = Ok dv
    /\ forall digits degs, selects dvs digits degs ->
         exists mx, nth_error dv (mixed_radix (map (@length _) dvs) digits) = Some mx
           /\ In mx degs /\ forall d, In d degs -> (d <= mx)%nat.
Proof.
  intros Hne Ho Hn HF.
  assert (E1 : mapM degree_vector bs = Ok dvs) by (now apply mapM_Ok_Forall2).
  assert (E2 : mapM nfunctions bs = Ok (map (@length _) dvs)).
  { clear -HF Ho Hn. induction HF as [|b dv bs dvs Hb _ IH]; [reflexivity|].
    inversion Ho; inversion Hn; subst. cbn [mapM map]. rewrite nfunctions_size by assumption. cbn [bind].
    rewrite IH by assumption. cbn [bind]. f_equal. f_equal.
    destruct (degree_vector_size b) as (dv' & E & L); try assumption. congruence. }
  eexists. split; [eapply degree_vector_tp; eauto|]. intros digits degs Hs.
  pose proof (selects_valid _ _ _ Hs) as Hv. exists (maximum degs). split.
  - rewrite nth_error_map. change (mixed_radix (map (@length _) dvs) digits) with (ravelF (map (@length _) dvs) digits).
    rewrite enumF_nth by (now apply ravelF_lt). rewrite unravelF_ravelF by easy. cbn [option_map].
    now rewrite (selects_parts _ _ _ Hs).
  - split; [|apply maximum_ge]. apply maximum_in. intros ->. inversion Hs; subst. inversion HF; subst. easy.
Qed.
Example C46_example : degree_vector (TPBasis [SimplexONB 1 1; SimplexONB 1 2] [1; 1]%nat) = Ok [0; 1; 1; 1; 2; 2]%nat.
Proof. reflexivity. Qed.
(** Finding: a tensor-product basis without factors has one function but no
    degree vector. *)
Theorem C46_empty_product_refuted dims : degree_vector (TPBasis [] dims) = Err ValueError
  /\ exists f, functions Rops (TPBasis [] dims) = Ok [f].
Proof. split; [reflexivity|]. eexists. reflexivity. Qed.

(** ** C55 *)
Theorem C55_range coeffs dims n ign rs : estimate_relative_expansion_residual coeffs dims n ign = Ok rs ->
  length rs = length coeffs /\ forall r, In (Some r) rs -> 0 <= r <= 1.
Proof.
  unfold estimate_relative_expansion_residual. destruct (fit_modal_decay coeffs dims n ign) as [fits|] eqn:EF; [|discriminate].
  cbn [bind]. intros E. injection E as <-. split.
  - rewrite map_length, combine_length.
    unfold fit_modal_decay in EF. destruct (make_mode_number_vector _ _); [|discriminate]. cbn [bind] in EF.
    destruct (get_decay_fit_matrix _ _ _); [|discriminate]. cbn [bind] in EF. apply mapM_length in EF. lia.
  - intros r Hr. apply in_map_iff in Hr. destruct Hr as ((row & fit) & E & Hin). cbn [fst snd] in E.
    assert (CP : forall p, fit = Some p -> 0 < snd p).
    { intros p ->. apply in_combine_r in Hin.
      unfold fit_modal_decay in EF. destruct (make_mode_number_vector _ _) as [mnv|]; [|discriminate]. cbn [bind] in EF.
      destruct (get_decay_fit_matrix _ _ _) as [fm|]; [|discriminate]. cbn [bind] in EF.
      revert fits EF Hin. induction coeffs as [|c cs IH]; intros fits EF Hin; cbn [mapM] in EF; [injection EF as <-; easy|].
      destruct (log_modal_coeffs mnv n ign c) as [lg|] eqn:Elg; [|discriminate]. cbn [bind] in EF.
      match type of EF with bind ?m _ = _ => destruct m as [fits'|] eqn:EF'; [|discriminate] end.
      injection EF as <-. destruct Hin as [Hin|Hin]; [|now apply (IH fits')].
      destruct lg as [vals|]; [|discriminate]. injection Hin as <-. cbn [fit_row snd]. apply exp_pos. }
    unfold residual_of in E. destruct fit as [[e c]|]; [|discriminate]. specialize (CP _ eq_refl). cbn [snd] in CP.
    destruct (Rlt_dec (2 * e + 1) 0) as [He|]; [|discriminate].
    set (l2 := sqrt _) in E. destruct (Req_EM_T l2 0) as [|Hl2]; [discriminate|].
    injection E as <-. destruct (Rlt_dec 1 _) as [|H1]; [lra|]. split; [|lra].
    apply Rmult_le_pos; [|left; apply Rinv_0_lt_compat; assert (0 <= l2) by apply sqrt_pos; lra].
    apply Rmult_le_pos; [lra|apply sqrt_pos].
Qed.

(** The fit solves the normal equations. *)
Theorem C55_normal_equations coeffs dims n ign fits : fit_modal_decay coeffs dims n ign = Ok fits ->
  exists mnv, mnv = map total (skipn ign (gnitsam n dims)) /\
  let lk i := if ((ign =? 0) && (i =? 0))%nat then 0 else ln (INR (nth i mnv 0%nat)) in
  Forall2 (fun row fit => forall e c, fit = Some (e, c) ->
     exists sq, skyline_row (map (fun x => x * x) row) = Ok sq /\ length (skipn ign row) = length mnv /\
     let b i := nth i (create_decay_baseline mnv n) 0 * sum_R sq in
     let y i := ln (nth (ign + i) sq 0 + b i * b i) / 2 in
     rsum (fun i => ln c + e * lk i - y i) (length mnv) = 0
     /\ rsum (fun i => lk i * (ln c + e * lk i - y i)) (length mnv) = 0) coeffs fits.
Proof.
  intros E. unfold fit_modal_decay in E. destruct (make_mode_number_vector (gnitsam n dims) ign) as [mnv|] eqn:EM; [|discriminate].
  cbn [bind] in E. exists mnv. split.
  { unfold make_mode_number_vector in EM. destruct (_ <? ign)%nat; [discriminate|]. injection EM as <-. reflexivity. }
  intros lk. clear EM.
  destruct (get_decay_fit_matrix mnv ign (map (fun _ => 1) mnv)) as [fm|] eqn:EF; [|discriminate]. cbn [bind] in E.
  unfold get_decay_fit_matrix in EF. rewrite map_length, Nat.eqb_refl in EF. cbn [negb] in EF.
  destruct ((ign =? 0) && (length mnv =? 0))%nat eqn:B1; [discriminate|].
  destruct ((ign =? 0) && negb (nth 0 mnv 0 =? 0))%nat eqn:B2; [discriminate|].
  match type of EF with (if ?t then _ else _) = _ => destruct t eqn:B3; [discriminate|] end.
  injection EF as <-.
  set (A := mkMat (length mnv) 2 _) in E.
  assert (W1 : forall i, (i < length mnv)%nat -> nth i (map (fun _ => 1) mnv) 0 = 1).
  { intros i Hi. rewrite (nth_indep _ 0 1) by (now rewrite map_length). exact (map_nth (fun _ : nat => 1) mnv 0%nat i). }
  assert (A0 : forall i, (i < length mnv)%nat -> ent A i 0 = 1) by (intros i Hi; unfold A; cbn [ent]; now apply W1).
  assert (A1 : forall i, (i < length mnv)%nat -> ent A i 1 = lk i).
  { intros i Hi. unfold A, lk. cbn [ent]. destruct ((ign =? 0) && (i =? 0))%nat; [reflexivity|]. rewrite W1 by easy. ring. }
  clearbody lk.
  revert fits E. induction coeffs as [|row rows IH]; intros fits E; cbn [mapM] in E; [injection E as <-; constructor|].
  destruct (log_modal_coeffs mnv n ign row) as [lg|] eqn:EL; [|discriminate]. cbn [bind] in E.
  match type of E with bind ?m _ = _ => destruct m as [fits'|] eqn:EF'; [|discriminate] end.
  injection E as <-. constructor; [|now apply IH]. clear IH.
  intros e c Efit. destruct lg as [vals|]; [|discriminate].
  assert (Ee : e = fst (fit_row (np_pinv A) vals)) by (injection Efit as <- <-; reflexivity).
  assert (Ec : c = snd (fit_row (np_pinv A) vals)) by (injection Efit as <- <-; reflexivity). clear Efit.
  unfold log_modal_coeffs in EL. destruct (skyline_row (map (fun x => x * x) row)) as [sq|] eqn:ES; [|discriminate].
  cbn [bind] in EL. exists sq. split; [reflexivity|].
  set (bl := create_decay_baseline mnv n) in *.
  assert (LB : length bl = length mnv) by (unfold bl, create_decay_baseline; now rewrite !map_length).
  assert (LS : length sq = length row).
  { destruct (Nat.lt_ge_cases (length row) 2) as [Hs|Hs].
    - destruct (C45_short (map (fun x => x * x) row) []) as [E' _]; [now rewrite map_length|]. congruence.
    - destruct (C45_row (map (fun x => x * x) row)) as (r & Er & Lr & _); [now rewrite map_length|].
      rewrite map_length in Lr. congruence. }
  destruct (negb (length (skipn ign sq) =? length bl)%nat) eqn:EN; [discriminate|].
  apply negb_false_iff, Nat.eqb_eq in EN. rewrite skipn_length in EN.
  assert (Hlen0 : (0 < length mnv)%nat \/ length mnv = 0%nat) by lia.
  set (args := map _ (combine (skipn ign sq) bl)) in EL.
  destruct (forallb _ args); [|discriminate]. injection EL as <-.
  assert (LA : length args = length mnv) by (unfold args; rewrite map_length, combine_length, skipn_length; lia).
  assert (Y : forall i, (i < length mnv)%nat -> nth i (map (fun a => ln a / 2) args) 0
     = ln (nth (ign + i) sq 0 + (nth i bl 0 * sum_R sq) * (nth i bl 0 * sum_R sq)) / 2).
  { intros i Hi. rewrite (nth_indep _ 0 (ln 0 / 2)) by (rewrite map_length; lia). rewrite (map_nth (fun a => ln a / 2)).
    f_equal. f_equal. unfold args.
    rewrite (nth_indep _ 0 ((fun p => fst p + snd p * sum_R sq * (snd p * sum_R sq)) (0, 0))) by
      (rewrite map_length, combine_length, skipn_length; lia).
    rewrite (map_nth (fun p => fst p + snd p * sum_R sq * (snd p * sum_R sq))).
    rewrite combine_nth by (rewrite skipn_length; lia). cbn [fst snd]. f_equal.
    assert (NS : forall (l : list R) i j d, nth j (skipn i l) d = nth (i + j) l d).
    { clear. intros l. induction l as [|a l IH]; intros [|i] j d; cbn [skipn]; try reflexivity.
      - destruct j; reflexivity.
      - rewrite IH. reflexivity. }
    apply NS. }
  assert (LR : (length row - ign)%nat = length mnv) by lia.
  split.
  { rewrite skipn_length. exact LR. }
  intros b y. unfold fit_row in Ee, Ec. cbn [fst snd] in Ee, Ec. rewrite Ec, ln_exp, Ee.
  set (vals := map (fun a => ln a / 2) args) in *.
  assert (LV : length vals = length mnv) by (unfold vals; now rewrite map_length).
  rewrite LV. pose proof (pinv_normal A (fun k => nth k vals 0)) as HN. cbv zeta in HN.
  change (nrows A) with (length mnv) in HN. change (ncols A) with 2%nat in HN. cbn [rsum] in HN.
  set (f0 := rsum (fun k => ent (np_pinv A) 0 k * nth k vals 0) (length mnv)) in *.
  set (f1 := rsum (fun k => ent (np_pinv A) 1 k * nth k vals 0) (length mnv)) in *.
  split.
  - refine (eq_trans _ (HN 0%nat ltac:(lia))). apply rsum_ext. intros i Hi. rewrite A0, A1 by easy. unfold y. rewrite <- Y by easy. ring.
  - refine (eq_trans _ (HN 1%nat ltac:(lia))). apply rsum_ext. intros i Hi. rewrite A0, A1 by easy. unfold y. rewrite <- Y by easy. ring.
Qed.

(** The fit is defined for every nonzero row with the right number of modes. *)
Lemma sum_R_nonneg l : (forall x, In x l -> 0 <= x) -> 0 <= sum_R l.
Proof. induction l as [|a l IH]; intros H; cbn; [lra|]. assert (0 <= a) by (apply H; now left). assert (0 <= sum_R l) by (apply IH; intros; apply H; now right). unfold sum_R in *. lra. Qed.
Lemma sum_R_pos l x : (forall y, In y l -> 0 <= y) -> In x l -> 0 < x -> 0 < sum_R l.
Proof.
  induction l as [|a l IH]; intros H Hin Hx; [easy|]. unfold sum_R in *. cbn.
  assert (0 <= a) by (apply H; now left).
  assert (0 <= fold_right Rplus 0 l) by (apply (sum_R_nonneg l); intros; apply H; now right).
  destruct Hin as [->|Hin]; [lra|]. assert (0 < fold_right Rplus 0 l) by (apply IH; auto; intros; apply H; now right). lra.
Qed.
Lemma gnitsam_first n d : nth_error (gnitsam n d) 0 = Some (repeat 0%nat d).
Proof.
  revert n; induction d as [|d IH]; intros n; [reflexivity|]. cbn [gnitsam].
  rewrite Nat.add_1_r. cbn [seq flat_map]. specialize (IH (n - 0)%nat).
  destruct (gnitsam (n - 0) d) as [|e l]; [discriminate|]. cbn in IH. injection IH as ->. cbn [map app nth_error].
  f_equal. clear. induction d; cbn in *; congruence.
Qed.
Lemma total_zero e : total e = 0%nat -> e = repeat 0%nat (length e).
Proof. unfold total. induction e as [|a e IH]; cbn; intros H; [reflexivity|]. f_equal; [lia|]. apply IH. lia. Qed.
Lemma sky_pos cur l : 0 <= cur -> forall x, In x (sky_from cur l) -> 0 <= x.
Proof.
  revert cur; induction l as [|a l IH]; intros cur Hc x Hx; [easy|]. cbn in Hx.
  assert (0 <= Rmax cur a) by (eapply Rle_trans; [exact Hc|apply Rmax_l]). destruct Hx as [<-|Hx]; [easy|]. eapply IH; eauto.
Qed.
Theorem C55_fit_defined coeffs dims n ign : (1 <= ign <= length (gnitsam n dims))%nat ->
  (2 <= length (gnitsam n dims))%nat ->
  (forall row, In row coeffs -> length row = length (gnitsam n dims) /\ exists x, In x row /\ x <> 0) ->
  exists fits, fit_modal_decay coeffs dims n ign = Ok fits /\ length fits = length coeffs
    /\ forall fit, In fit fits -> exists e c, fit = Some (e, c) /\ 0 < c.
Proof.
  intros Hign H2 Hrow. unfold fit_modal_decay, make_mode_number_vector.
  destruct (Nat.ltb_spec (length (gnitsam n dims)) ign); [lia|]. cbn [bind].
  set (mnv := map sum_nat (skipn ign (gnitsam n dims))).
  assert (LM : length mnv = (length (gnitsam n dims) - ign)%nat) by (unfold mnv; now rewrite map_length, skipn_length).
  assert (KP : forall i, (i < length mnv)%nat -> nth i mnv 0%nat <> 0%nat).
  { intros i Hi E. unfold mnv in E.
    assert (NS : nth_error (gnitsam n dims) (ign + i) <> None) by (apply nth_error_Some; lia).
    destruct (nth_error (gnitsam n dims) (ign + i)) as [e|] eqn:Ee; [|easy]. clear NS.
    assert (SK : forall A (l : list A) i j, nth_error (skipn i l) j = nth_error l (i + j)).
    { clear. intros A l. induction l as [|a l IH]; intros [|i] j; cbn [skipn]; try reflexivity; [destruct j; reflexivity|]. now rewrite IH. }
    assert (Em : nth_error (map sum_nat (skipn ign (gnitsam n dims))) i = Some (total e))
      by (rewrite nth_error_map, SK, Ee; reflexivity).
    rewrite (nth_error_nth _ _ 0%nat Em) in E.
    pose proof (nth_error_In _ _ Ee) as Hin. apply gnitsam_in in Hin. destruct Hin as [Le _].
    apply total_zero in E. rewrite Le in E. subst e.
    pose proof (gnitsam_NoDup dims n) as ND. rewrite NoDup_nth_error in ND.
    specialize (ND 0%nat (ign + i)%nat). rewrite gnitsam_first, Ee in ND.
    assert (0 = ign + i)%nat by (apply ND; [lia|reflexivity]). lia. }
  unfold get_decay_fit_matrix. rewrite map_length, Nat.eqb_refl. cbn [negb].
  destruct (Nat.eqb_spec ign 0); [lia|]. cbn [andb].
  destruct (existsb _ (seq 0 (length mnv))) eqn:EX.
  { exfalso. apply existsb_exists in EX. destruct EX as (i & Hi & EX). apply in_seq in Hi.
    apply andb_true_iff in EX. destruct EX as [EX _]. apply Nat.eqb_eq in EX. apply (KP i); [lia|exact EX]. }
  cbn [bind]. clear EX. set (fm := np_pinv _). clearbody fm.
  set (bl := create_decay_baseline mnv n).
  assert (BP : forall x, In x bl -> 0 < x).
  { intros x Hx. unfold bl, create_decay_baseline in Hx.
    set (mc := map (fun k => if (k =? 0)%nat then 1 else / INR k ^ n) mnv) in Hx.
    assert (MP : forall y, In y mc -> 0 < y).
    { intros y Hy. unfold mc in Hy. apply in_map_iff in Hy. destruct Hy as (k & <- & _). destruct (Nat.eqb_spec k 0); [lra|].
      apply Rinv_0_lt_compat, pow_lt, lt_0_INR. lia. }
    apply in_map_iff in Hx. destruct Hx as (y & <- & Hy). apply Rmult_lt_0_compat; [now apply MP|].
    apply Rinv_0_lt_compat, sqrt_lt_R0. apply (sum_R_pos _ (y * y)).
    - intros z Hz. apply in_map_iff in Hz. destruct Hz as (w & <- & _). nra.
    - apply in_map_iff. now exists y.
    - specialize (MP y Hy). nra. }
  assert (LB : length bl = length mnv) by (unfold bl, create_decay_baseline; now rewrite !map_length).
  assert (ONE : forall row, In row coeffs -> exists vals, log_modal_coeffs mnv n ign row = Ok (Some vals)).
  { intros row Hin. destruct (Hrow row Hin) as (Lr & x & Hx & Hx0). unfold log_modal_coeffs.
    destruct (C45_row (map (fun x => x * x) row)) as (sq & Esq & Lsq & _ & Hge & _); [rewrite map_length; lia|].
    rewrite map_length in Lsq, Hge. rewrite Esq. cbn [bind]. fold bl.
    destruct (Nat.eqb_spec (length (skipn ign sq)) (length bl)) as [_|NE].
    2:{ exfalso. apply NE. rewrite skipn_length. lia. } cbn [negb].
    assert (SQ : forall i, (i < length row)%nat -> 0 <= nth i sq 0).
    { intros i Hi. eapply Rle_trans; [|now apply Hge].
      rewrite (nth_indep _ 0 ((fun x => x * x) 0)) by (now rewrite map_length). rewrite (map_nth (fun x => x * x)). nra. }
    assert (SQI : forall y, In y sq -> 0 <= y).
    { intros y Hy. destruct (In_nth _ _ 0 Hy) as (i & Hi & <-). apply SQ. lia. }
    assert (NP : 0 < sum_R sq).
    { destruct (In_nth _ _ 0 Hx) as (i & Hi & E). apply (sum_R_pos _ (nth i sq 0) SQI); [apply nth_In; lia|].
      eapply Rlt_le_trans; [|now apply Hge].
      rewrite (nth_indep _ 0 ((fun x => x * x) 0)) by (now rewrite map_length). rewrite (map_nth (fun x => x * x)), E. nra. }
    destruct (forallb _ _) eqn:EF; [eexists; reflexivity|]. exfalso. apply not_true_iff_false in EF. apply EF. clear EF.
    apply forallb_forall. intros a Ha. apply in_map_iff in Ha. destruct Ha as ([u v] & <- & Huv). cbn [fst snd].
    pose proof (in_combine_r _ _ _ _ Huv) as Hv. apply in_combine_l in Huv. specialize (BP v Hv).
    assert (0 <= u). { apply SQI. rewrite <- (firstn_skipn ign sq). apply in_or_app. now right. }
    destruct (Rlt_dec 0 _) as [|NL]; [reflexivity|]. exfalso. apply NL. assert (0 < v * sum_R sq) by (now apply Rmult_lt_0_compat). nra. }
  clear Hrow. induction coeffs as [|row rows IH].
  - exists []. now split.
  - destruct IH as (fits & E & L & HF); [intros; apply ONE; now right|].
    destruct (ONE row (or_introl eq_refl)) as (vals & Ev). cbn [mapM]. rewrite Ev. cbn [bind]. rewrite E. cbn [bind].
    eexists. split; [reflexivity|]. split; [cbn; congruence|]. intros fit [<-|Hf]; [|now apply HF].
    eexists _, _. split; [reflexivity|]. apply exp_pos.
Qed.
(** The hypotheses hold for one element with modes (3, 1, 2), dims 1, n 2, ignoring one mode. *)
Example C55_example : (1 <= 1 <= length (gnitsam 2 1))%nat /\ (2 <= length (gnitsam 2 1))%nat
  /\ forall row, In row [[3; 1; 2]] -> length row = length (gnitsam 2 1) /\ exists x, In x row /\ x <> 0.
Proof. split; [cbn; lia|]. split; [cbn; lia|]. intros row [<-|[]]. split; [reflexivity|]. exists 3. split; [now left|lra]. Qed.

Print Assumptions C45_row.
Print Assumptions C46_estimator.
Print Assumptions C46_degree_product.
Print Assumptions C55_range.
Print Assumptions C55_normal_equations.
Print Assumptions C55_fit_defined.
