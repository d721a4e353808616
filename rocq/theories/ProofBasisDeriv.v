(** * Functions, gradients and derivatives of every basis *)
From Coquelicot Require Import Coquelicot.
From Coq Require Import List Arith Bool ZArith Reals Lra Lia.
From Verif Require Import Py PyToolsModel ModelNd ModelShapes ModelSpaces ModelModes ModelBasis
  EnumFacts SpecIndex RSum IntFacts SpecPoly SpecPartial ProofNodeTuples ProofBasisIndex ProofTPCall
  ProofPKDO ProofJacobi2 PropsPKDO ProofMonomial ProofTPGrad.
Import ListNotations.
Local Open Scope R_scope.

(** Dimension of a basis, and consistency of the dimensions recorded in
    tensor-product bases. *)
Definition basis_dim (b : basis) : nat :=
  match b with
  | SimplexONB d _ | SimplexMonomial d _ => d
  | TPBasis _ dims => sum_nat dims
  end.
Inductive wf_basis : basis -> Prop :=
| wf_onb d n : wf_basis (SimplexONB d n)
| wf_mono d n : wf_basis (SimplexMonomial d n)
| wf_tp bs : Forall wf_basis bs -> wf_basis (TPBasis bs (map basis_dim bs)).

(** Points off the tolerance strips of the triangle and tetrahedron factors. *)
Fixpoint off_strips (b : basis) (x : list R) {struct b} : Prop :=
  match b with
  | SimplexONB 2 _ => / 10 ^ 12 < Rabs (nth 1 x 0 - 1)
  | SimplexONB 3 _ => / 10 ^ 10 < Rabs (nth 1 x 0 + nth 2 x 0) /\ / 10 ^ 10 < Rabs (nth 2 x 0 - 1)
  | TPBasis bs _ =>
      (fix all (bs : list basis) (x : list R) : Prop :=
         match bs with
         | [] => True
         | b :: bs' => off_strips b (firstn (basis_dim b) x) /\ all bs' (skipn (basis_dim b) x)
         end) bs x
  | _ => True
  end.
Fixpoint off_strips_all (bs : list basis) (x : list R) : Prop :=
  match bs with
  | [] => True
  | b :: bs' => off_strips b (firstn (basis_dim b) x) /\ off_strips_all bs' (skipn (basis_dim b) x)
  end.
Lemma off_strips_TP bs ds x : off_strips (TPBasis bs ds) x <-> off_strips_all bs x.
Proof.
  cbn [off_strips]. revert x. induction bs as [|b bs IH]; intros x; [reflexivity|].
  cbn [off_strips_all]. now rewrite IH.
Qed.

Record mode := Mode { mf : bfun (T:=R); mg : bgrad (T:=R); md : nat -> bfun (T:=R) }.

Definition mode_ok (n : nat) (reg : list R -> Prop) (m : mode) : Prop :=
  forall x, length x = n -> exists v c, mf m x = Ok v /\ mg m x = Ok c /\ length c = n
    /\ (forall j, (j < n)%nat -> md m j x = Ok (nth j c 0))
    /\ (reg x -> forall j, (j < n)%nat ->
          is_derive (fun t => valR (mf m) (upd x j t)) (nth j x 0) (nth j c 0)).

Definition basis_ok (b : basis) : Prop :=
  exists ms, functions Rops b = Ok (map mf ms) /\ gradients Rops b = Ok (map mg ms)
    /\ (forall j, (j < basis_dim b)%nat ->
          derivatives Rops b (Z.of_nat j) = Ok (map (fun m => md m j) ms))
    /\ Forall (mode_ok (basis_dim b) (off_strips b)) ms.

(** ** Simplex bases *)
Lemma len1 (x : list R) : length x = 1%nat -> exists a, x = [a].
Proof. destruct x as [|a [|]]; try discriminate. eauto. Qed.
Lemma len2 (x : list R) : length x = 2%nat -> exists a b, x = [a; b].
Proof. destruct x as [|a [|b [|]]]; try discriminate. eauto. Qed.
Lemma len3 (x : list R) : length x = 3%nat -> exists a b c, x = [a; b; c].
Proof. destruct x as [|a [|b [|c [|]]]]; try discriminate. eauto. Qed.
Lemma nlen1 (x : list nat) : length x = 1%nat -> exists a, x = [a].
Proof. destruct x as [|a [|]]; try discriminate. eauto. Qed.
Lemma nlen2 (x : list nat) : length x = 2%nat -> exists a b, x = [a; b].
Proof. destruct x as [|a [|b [|]]]; try discriminate. eauto. Qed.
Lemma nlen3 (x : list nat) : length x = 3%nat -> exists a b c, x = [a; b; c].
Proof. destruct x as [|a [|b [|c [|]]]]; try discriminate. eauto. Qed.

Lemma getitem_z_ok (c : list R) j : (j < length c)%nat -> getitem_z c (Z.of_nat j) = Ok (nth j c 0).
Proof.
  intros H. unfold getitem_z. replace (Z.of_nat j <? 0)%Z with false by (symmetry; apply Z.ltb_ge; lia).
  rewrite Nat2Z.id. unfold getitem. destruct (nth_error c j) eqn:E.
  - f_equal. symmetry. now apply nth_error_nth.
  - apply nth_error_None in E. lia.
Qed.

Definition onb_md (g : bgrad (T:=R)) (j : nat) : bfun (T:=R) :=
  fun x => let* c := g x in getitem_z c (Z.of_nat j).

Lemma Forall_map_in {A B} (P : B -> Prop) (f : A -> B) l : (forall a, In a l -> P (f a)) -> Forall P (map f l).
Proof. intros H. apply Forall_forall. intros b Hb. apply in_map_iff in Hb. destruct Hb as (a & <- & Ha). auto. Qed.

Lemma basis_ok_onb d n : (1 <= d <= 3)%nat -> basis_ok (SimplexONB d n).
Proof.
  intros Hd.
  set (F := match d with 1%nat => pkdo_1d Rops | 2%nat => pkdo_2d_fn Rops | _ => pkdo_3d_fn Rops end).
  set (G := match d with 1%nat => grad_pkdo_1d Rops | 2%nat => grad_pkdo_2d_fn Rops | _ => grad_pkdo_3d_fn Rops end).
  exists (map (fun id => Mode (F id) (G id) (onb_md (G id))) (simplex_mode_tuples d n)).
  rewrite !map_map. cbn [mf mg md].
  split; [|split; [|split]].
  - destruct d as [|[|[|[|d]]]]; try lia; reflexivity.
  - destruct d as [|[|[|[|d]]]]; try lia; reflexivity.
  - intros j _. rewrite map_map. cbn [md].
    destruct d as [|[|[|[|d]]]]; try lia; cbn [derivatives simplex_onb_gradients bind];
      rewrite map_map; reflexivity.
  - apply Forall_map_in. intros id Hid. cbn [basis_dim].
    assert (Hl : length id = d).
    { unfold simplex_mode_tuples in Hid. now apply gnitsam_in in Hid. }
    intros x Hx. cbn [mf mg md]. unfold F, G. clear F G.
    destruct d as [|[|[|[|d]]]]; try lia.
    + apply len1 in Hx. destruct Hx as (r & ->). apply nlen1 in Hl. destruct Hl as (i & ->).
      exists (jacobi Rops 0 0 i r), [grad_jacobi Rops 0 0 i r].
      split; [reflexivity|]. split; [reflexivity|]. split; [reflexivity|]. split.
      * intros j Hj. unfold onb_md. cbn [grad_pkdo_1d bind]. apply getitem_z_ok. simpl. lia.
      * intros _ [|j] Hj; [|lia]. cbn [upd valR nth].
        apply grad_jacobi_correct; try apply par0; apply ex0.
    + apply len2 in Hx. destruct Hx as (r & s & ->). apply nlen2 in Hl. destruct Hl as (i & j & ->).
      destruct (grad_pkdo_2d Rops i j r s) as [dr ds] eqn:E.
      exists (pkdo_2d Rops i j r s), [dr; ds].
      split; [reflexivity|].
      assert (EG : grad_pkdo_2d_fn Rops [i; j] [r; s] = Ok [dr; ds])
        by (cbn [grad_pkdo_2d_fn]; now rewrite E).
      split; [exact EG|]. split; [reflexivity|]. split.
      * intros m Hm. unfold onb_md. rewrite EG. cbn [bind]. apply getitem_z_ok. simpl. lia.
      * cbn [off_strips nth]. intros Hr m Hm.
        destruct (C22_grad_pkdo_2d i j r s Hr) as [H1 H2]. rewrite E in H1, H2.
        destruct m as [|[|m]]; [exact H1|exact H2|lia].
    + apply len3 in Hx. destruct Hx as (r & s & t & ->). apply nlen3 in Hl. destruct Hl as (i & j & k & ->).
      destruct (grad_pkdo_3d Rops i j k r s t) as [[dr ds] dt] eqn:E.
      exists (pkdo_3d Rops i j k r s t), [dr; ds; dt].
      split; [reflexivity|].
      assert (EG : grad_pkdo_3d_fn Rops [i; j; k] [r; s; t] = Ok [dr; ds; dt])
        by (cbn [grad_pkdo_3d_fn]; now rewrite E).
      split; [exact EG|]. split; [reflexivity|]. split.
      * intros m Hm. unfold onb_md. rewrite EG. cbn [bind]. apply getitem_z_ok. simpl. lia.
      * cbn [off_strips nth]. intros [Hr1 Hr2] m Hm.
        destruct (C22_grad_pkdo_3d i j k r s t Hr1 Hr2) as (H1 & H2 & H3). rewrite E in H1, H2, H3.
        destruct m as [|[|[|m]]]; [exact H1|exact H2|exact H3|lia].
Qed.

Lemma basis_ok_mono d n : basis_ok (SimplexMonomial d n).
Proof.
  exists (map (fun id => Mode (monomial Rops id) (grad_monomial Rops id)
                          (fun j => diff_monomial Rops id (Z.of_nat j))) (simplex_mode_tuples d n)).
  rewrite !map_map. cbn [mf mg md]. split; [reflexivity|]. split; [reflexivity|]. split.
  - intros j _. rewrite map_map. reflexivity.
  - apply Forall_map_in. intros e He. cbn [basis_dim].
    assert (Hl : length e = d).
    { unfold simplex_mode_tuples in He. now apply gnitsam_in in He. }
    intros x Hx. cbn [mf mg md].
    exists (monoval e x), (map (fun j => dmono e j x) (seq 0 (length e))).
    split; [apply monomial_val; congruence|]. split; [apply grad_monomial_val; congruence|].
    split; [rewrite map_length, seq_length; easy|]. split.
    + intros j Hj. rewrite diff_monomial_val by lia. f_equal. symmetry. apply nth_map_seq. lia.
    + intros _ j Hj. rewrite nth_map_seq by lia.
      eapply is_derive_ext; [|apply monoval_deriv; lia].
      intros t. unfold valR. rewrite monomial_val by (rewrite upd_length; lia). reflexivity.
Qed.

(** ** Tensor products *)
Fixpoint repl (j : nat) (dims : list nat) (fl : list (bfun (T:=R))) (dl : list (nat -> bfun (T:=R))) : list (bfun (T:=R)) :=
  match dims, fl, dl with
  | d :: dims', f :: fl', df :: dl' =>
      if (j <? d)%nat then df j :: fl' else f :: repl (j - d) dims' fl' dl'
  | _, _, _ => []
  end.
Fixpoint replv (j : nat) (dims : list nat) (vs : list R) (cs : list (list R)) : list R :=
  match dims, vs, cs with
  | d :: dims', v :: vs', c :: cs' =>
      if (j <? d)%nat then nth j c 0 :: vs' else v :: replv (j - d) dims' vs' cs'
  | _, _, _ => []
  end.

Inductive modes_on : list nat -> list mode -> list (list R) -> list R -> list (list R) -> Prop :=
| mo_nil : modes_on [] [] [] [] []
| mo_cons d dims m ms x xs v vs c cs :
    length x = d -> mf m x = Ok v -> mg m x = Ok c -> length c = d ->
    (forall j, (j < d)%nat -> md m j x = Ok (nth j c 0)) ->
    modes_on dims ms xs vs cs ->
    modes_on (d :: dims) (m :: ms) (x :: xs) (v :: vs) (c :: cs).

Lemma modes_on_grad dims ms xs vs cs : modes_on dims ms xs vs cs ->
  grad_values dims (map mf ms) (map mg ms) xs vs cs.
Proof. induction 1; cbn [map]; constructor; auto. Qed.

Lemma modes_on_repl dims ms xs vs cs j : modes_on dims ms xs vs cs -> (j < sum_nat dims)%nat ->
  block_values dims (repl j dims (map mf ms) (map md ms)) xs (replv j dims vs cs).
Proof.
  intros H. revert j. induction H as [|d dims m ms x xs v vs c cs Hx Hv Hg Hc Hd H IH]; intros j Hj.
  - unfold sum_nat in Hj. simpl in Hj. lia.
  - rewrite sum_nat_cons in Hj. cbn [map repl replv].
    destruct (Nat.ltb_spec j d) as [Hl|Hl].
    + constructor; auto. exact (grad_values_block _ _ _ _ _ _ (modes_on_grad _ _ _ _ _ H)).
    + constructor; auto. apply IH. lia.
Qed.

Lemma gradl_nth dims ms xs vs cs j P : modes_on dims ms xs vs cs -> (j < sum_nat dims)%nat ->
  nth j (gradl P vs cs) 0 = P * rprod (replv j dims vs cs).
Proof.
  intros H. revert j P. induction H as [|d dims m ms x xs v vs c cs Hx Hv Hg Hc Hd H IH]; intros j P Hj.
  - unfold sum_nat in Hj. simpl in Hj. lia.
  - rewrite sum_nat_cons in Hj. cbn [gradl replv].
    destruct (Nat.ltb_spec j d) as [Hl|Hl].
    + rewrite app_nth1 by (rewrite map_length; lia).
      rewrite (nth_indep _ 0 (P * 0 * rprod vs)) by (rewrite map_length; lia).
      rewrite (map_nth (fun y => P * y * rprod vs)). unfold rprod at 2. cbn [fold_right].
      change (fold_right Rmult 1 vs) with (rprod vs). ring.
    + rewrite app_nth2 by (rewrite map_length; lia). rewrite map_length, Hc, IH by lia.
      unfold rprod at 2. cbn [fold_right]. fold (rprod (replv (j - d) dims vs cs)). ring.
Qed.

Lemma gradl_length P dims ms xs vs cs : modes_on dims ms xs vs cs -> length (gradl P vs cs) = sum_nat dims.
Proof.
  intros H. revert P. induction H; intros P; [reflexivity|].
  cbn [gradl]. rewrite app_length, map_length, IHmodes_on, sum_nat_cons. lia.
Qed.

(** Splitting a point into blocks. *)
Fixpoint blocks (dims : list nat) (x : list R) : list (list R) :=
  match dims with
  | [] => []
  | d :: dims' => firstn d x :: blocks dims' (skipn d x)
  end.
Lemma blocks_concat dims x : length x = sum_nat dims -> concat (blocks dims x) = x.
Proof.
  revert x; induction dims as [|d dims IH]; intros x H.
  - unfold sum_nat in H. simpl in H. apply length_zero_iff_nil in H. now subst.
  - rewrite sum_nat_cons in H. cbn [blocks concat]. rewrite IH; [apply firstn_skipn|].
    rewrite skipn_length. lia.
Qed.

Lemma modes_split bs mss idx ml x :
  Forall2 (fun b ms => Forall (mode_ok (basis_dim b) (off_strips b)) ms) bs mss ->
  selects mss idx ml -> length x = sum_nat (map basis_dim bs) ->
  exists vs cs, modes_on (map basis_dim bs) ml (blocks (map basis_dim bs) x) vs cs.
Proof.
  intros H. revert idx ml x. induction H as [|b ms bs mss Hb H IH]; intros idx ml x Hs Hx.
  - inversion Hs; subst. exists [], []. constructor.
  - inversion Hs as [|? ? i idx' m ml' Hi Hs']; subst. cbn [map] in Hx. rewrite sum_nat_cons in Hx.
    destruct (IH idx' ml' (skipn (basis_dim b) x) Hs') as (vs & cs & HM); [rewrite skipn_length; lia|].
    rewrite Forall_forall in Hb. apply nth_error_In in Hi.
    destruct (Hb m Hi (firstn (basis_dim b) x)) as (v & c & E1 & E2 & E3 & E4 & _).
    { rewrite firstn_length. lia. }
    exists (v :: vs), (c :: cs). cbn [map blocks]. constructor; auto. rewrite firstn_length. lia.
Qed.

Fixpoint tpval (ml : list mode) (xs : list (list R)) : R :=
  match ml, xs with
  | m :: ml', x :: xs' => valR (mf m) x * tpval ml' xs'
  | _, _ => 1
  end.

Lemma tp_val bs mss idx ml x :
  Forall2 (fun b ms => Forall (mode_ok (basis_dim b) (off_strips b)) ms) bs mss ->
  selects mss idx ml -> length x = sum_nat (map basis_dim bs) ->
  valR (tp_call Rops (map basis_dim bs) (map mf ml)) x = tpval ml (blocks (map basis_dim bs) x).
Proof.
  intros H Hs Hx. destruct (modes_split bs mss idx ml x H Hs Hx) as (vs & cs & HM).
  unfold valR. rewrite <- (blocks_concat (map basis_dim bs) x Hx) at 1.
  rewrite (tp_call_R _ _ _ _ (grad_values_block _ _ _ _ _ _ (modes_on_grad _ _ _ _ _ HM))).
  clear -HM. induction HM; [reflexivity|]. cbn [fold_right tpval]. unfold valR at 1. rewrite H0.
  now rewrite IHHM.
Qed.

Lemma blocks_upd d dims x j t : length x = (d + sum_nat dims)%nat -> (j < d + sum_nat dims)%nat ->
  blocks (d :: dims) (upd x j t) =
  if (j <? d)%nat then upd (firstn d x) j t :: blocks dims (skipn d x)
  else firstn d x :: blocks dims (upd (skipn d x) (j - d) t).
Proof.
  intros Hx Hj. cbn [blocks].
  rewrite <- (firstn_skipn d x) at 1 2.
  assert (Hf : length (firstn d x) = d) by (rewrite firstn_length; lia).
  destruct (Nat.ltb_spec j d) as [Hl|Hl].
  - rewrite upd_app_l by lia. f_equal.
    + rewrite <- Hf at 1. rewrite <- (upd_length (firstn d x) j t). apply firstn_app_len.
    + f_equal. rewrite <- Hf at 1. rewrite <- (upd_length (firstn d x) j t). apply skipn_app_len.
  - rewrite upd_app_r by lia. rewrite Hf. f_equal.
    + rewrite <- Hf at 1. apply firstn_app_len.
    + f_equal. rewrite <- Hf at 1. apply skipn_app_len.
Qed.

Lemma tpval_deriv bs mss idx ml x vs cs j :
  Forall2 (fun b ms => Forall (mode_ok (basis_dim b) (off_strips b)) ms) bs mss ->
  selects mss idx ml -> length x = sum_nat (map basis_dim bs) ->
  modes_on (map basis_dim bs) ml (blocks (map basis_dim bs) x) vs cs ->
  off_strips_all bs x -> (j < sum_nat (map basis_dim bs))%nat ->
  is_derive (fun t => tpval ml (blocks (map basis_dim bs) (upd x j t))) (nth j x 0)
    (rprod (replv j (map basis_dim bs) vs cs)).
Proof.
  intros H. revert idx ml x vs cs j. induction H as [|b ms bs mss Hb H IH];
    intros idx ml x vs cs j Hs Hx HM Ho Hj.
  - unfold sum_nat in Hj. simpl in Hj. lia.
  - inversion Hs as [|? ? i idx' m ml' Hi Hs']; subst. cbn [map] in *. rewrite sum_nat_cons in Hx, Hj.
    cbn [blocks] in HM.
    inversion HM as [|? ? ? ? ? ? v vs' c cs' M1 M2 M3 M4 M5 M6]; subst. destruct Ho as [Ho1 Ho2].
    set (d := basis_dim b) in *. set (dims := map basis_dim bs) in *.
    assert (Hf : length (firstn d x) = d) by (rewrite firstn_length; lia).
    assert (Hk : length (skipn d x) = sum_nat dims) by (rewrite skipn_length; lia).
    assert (Ev : tpval ml' (blocks dims (skipn d x)) = rprod vs').
    { clear -M6. induction M6; [reflexivity|]. cbn [tpval]. unfold valR. rewrite H0, IHM6. reflexivity. }
    apply is_derive_ext with (fun t => tpval (m :: ml')
       (if (j <? d)%nat then upd (firstn d x) j t :: blocks dims (skipn d x)
        else firstn d x :: blocks dims (upd (skipn d x) (j - d) t))).
    { intros t. f_equal. symmetry. now apply blocks_upd. }
    cbn [replv].
    assert (En : nth j x 0 = if (j <? d)%nat then nth j (firstn d x) 0 else nth (j - d) (skipn d x) 0).
    { rewrite <- (firstn_skipn d x) at 1. destruct (Nat.ltb_spec j d).
      - now rewrite app_nth1 by lia.
      - rewrite app_nth2 by lia. now rewrite Hf. }
    rewrite En. destruct (Nat.ltb_spec j d) as [Hl|Hl].
    + cbn [tpval]. rewrite Ev. unfold rprod at 2. cbn [fold_right]. fold (rprod vs').
      rewrite Forall_forall in Hb. apply nth_error_In in Hi.
      destruct (Hb m Hi (firstn d x) Hf) as (v' & c' & _ & E2 & _ & _ & E5).
      rewrite M3 in E2. injection E2 as <-.
      eapply isD_eq.
      * apply isD_mult; [apply (E5 Ho1 j Hl)|apply @is_derive_const].
      * change zero with 0. cbv beta. rewrite Rmult_0_r, Rplus_0_r. reflexivity.
    + cbn [tpval]. unfold rprod. cbn [fold_right]. fold (rprod (replv (j - d) dims vs' cs')).
      assert (Ev1 : valR (mf m) (firstn d x) = v) by (unfold valR; now rewrite M2). rewrite Ev1.
      apply (is_derive_scal (fun t => tpval ml' (blocks dims (upd (skipn d x) (j - d) t)))).
      eapply IH; eauto. lia.
Qed.

(** [derivatives] of a product. *)
Definition der_pick (axis : Z) (p : (Z -> res (list (bfun (T:=R)))) * list (bfun (T:=R)))
  (q : nat * (nat * nat)) : res (bfun (T:=R)) :=
  let '(mid_i, (start_axis, end_axis)) := q in
  if ((Z.of_nat start_axis <=? axis) && (axis <? Z.of_nat end_axis))%Z
  then let* ds := (fst p) (axis - Z.of_nat start_axis)%Z in getitem ds mid_i
  else getitem (snd p) mid_i.

Lemma der_out (D : list (Z -> res (list (bfun (T:=R))))) fss idx fl dims off axis :
  selects fss idx fl -> length D = length fss -> length dims = length fss ->
  (axis < Z.of_nat off)%Z ->
  zipM (der_pick axis) (combine D fss) (combine idx (dim_ranges off dims)) = Ok fl.
Proof.
  intros H. revert D dims off. induction H as [|fs fss i idx f fl Hf H IH];
    intros [|D0 D] [|d dims] off L1 L2 Ha; try discriminate; [reflexivity|].
  cbn [dim_ranges combine zipM der_pick].
  replace (Z.of_nat off <=? axis)%Z with false by (symmetry; apply Z.leb_gt; lia). cbn [andb snd].
  unfold getitem. rewrite Hf. cbn [bind]. rewrite IH by (simpl in *; lia). reflexivity.
Qed.

Lemma der_in bs mss idx ml off j :
  Forall2 (fun b ms => forall j, (j < basis_dim b)%nat ->
             derivatives Rops b (Z.of_nat j) = Ok (map (fun m => md m j) ms)) bs mss ->
  selects mss idx ml -> (j < sum_nat (map basis_dim bs))%nat ->
  zipM (der_pick (Z.of_nat (off + j)))
    (combine (map (fun b => derivatives Rops b) bs) (map (map mf) mss))
    (combine idx (dim_ranges off (map basis_dim bs)))
  = Ok (repl j (map basis_dim bs) (map mf ml) (map md ml)).
Proof.
  intros H. revert idx ml off j. induction H as [|b ms bs mss Hb H IH]; intros idx ml off j Hs Hj.
  - unfold sum_nat in Hj. simpl in Hj. lia.
  - inversion Hs as [|? ? i idx' m ml' Hi Hs']; subst. cbn [map] in *. rewrite sum_nat_cons in Hj.
    cbn [dim_ranges combine zipM der_pick repl].
    replace (Z.of_nat off <=? Z.of_nat (off + j))%Z with true by (symmetry; apply Z.leb_le; lia).
    cbn [andb].
    assert (Hs2 : selects (map (map mf) mss) idx' (map mf ml')).
    { clear -Hs'. induction Hs'; cbn [map]; constructor; auto. rewrite nth_error_map, H. reflexivity. }
    assert (L : length bs = length mss) by (now apply Forall2_length in H).
    destruct (Nat.ltb_spec j (basis_dim b)) as [Hl|Hl].
    + replace (Z.of_nat (off + j) <? Z.of_nat (off + basis_dim b))%Z with true
        by (symmetry; apply Z.ltb_lt; lia). cbn [fst].
      replace (Z.of_nat (off + j) - Z.of_nat off)%Z with (Z.of_nat j) by lia.
      rewrite (Hb j Hl). cbn [bind]. unfold getitem. rewrite nth_error_map, Hi. cbn [option_map bind].
      rewrite (der_out _ _ _ _ _ _ _ Hs2); [reflexivity|rewrite !map_length; lia..|lia].
    + replace (Z.of_nat (off + j) <? Z.of_nat (off + basis_dim b))%Z with false
        by (symmetry; apply Z.ltb_ge; lia). cbn [snd].
      unfold getitem. rewrite nth_error_map, Hi. cbn [option_map bind].
      replace (off + j)%nat with (off + basis_dim b + (j - basis_dim b))%nat by lia.
      rewrite (IH idx' ml' (off + basis_dim b)%nat (j - basis_dim b)%nat Hs') by lia. reflexivity.
Qed.

Definition tp_mode (dims : list nat) (ml : list mode) : mode :=
  Mode (tp_call Rops dims (map mf ml)) (tp_grad_call Rops dims (ders_list (map mf ml) (map mg ml)))
       (fun j => tp_call Rops dims (repl j dims (map mf ml) (map md ml))).

Lemma selects_map {A B} (f : A -> B) ls idx l : selects ls idx l -> selects (map (map f) ls) idx (map f l).
Proof. induction 1; cbn [map]; constructor; auto. rewrite nth_error_map, H. reflexivity. Qed.

Lemma Forall_choice {A B} (R : A -> B -> Prop) l : Forall (fun a => exists b, R a b) l ->
  exists l', Forall2 R l l'.
Proof. induction 1 as [|a l (b & Hb) _ (l' & H)]; [exists []; constructor|]. exists (b :: l'). constructor; auto. Qed.

Lemma basis_ok_tp bs : Forall basis_ok bs -> basis_ok (TPBasis bs (map basis_dim bs)).
Proof.
  intros H. unfold basis_ok in H. apply Forall_choice in H. destruct H as (mss & H).
  set (dims := map basis_dim bs).
  exists (map (fun idx => tp_mode dims (sel_parts mss idx)) (enumF (map (@length _) mss))).
  assert (HF : mapM (functions Rops) bs = Ok (map (map mf) mss)).
  { apply mapM_Ok_Forall2. clear -H. induction H as [|b ms bs mss (E & _) H IH]; cbn [map]; constructor; auto. }
  assert (HG : mapM (gradients Rops) bs = Ok (map (map mg) mss)).
  { apply mapM_Ok_Forall2. clear -H. induction H as [|b ms bs mss (_ & E & _) H IH]; cbn [map]; constructor; auto. }
  assert (HD : Forall2 (fun b ms => forall j, (j < basis_dim b)%nat ->
             derivatives Rops b (Z.of_nat j) = Ok (map (fun m => md m j) ms)) bs mss).
  { clear -H. induction H as [|b ms bs mss (_ & _ & E & _) H IH]; constructor; auto. }
  assert (HM : Forall2 (fun b ms => Forall (mode_ok (basis_dim b) (off_strips b)) ms) bs mss).
  { clear -H. induction H as [|b ms bs mss (_ & _ & _ & E) H IH]; constructor; auto. }
  clear H.
  assert (EL : forall (B : Type) (f : mode -> B), map (@length _) (map (map f) mss) = map (@length _) mss).
  { intros B f. rewrite map_map. apply map_ext. intros; apply map_length. }
  assert (SE : forall idx, In idx (enumF (map (@length _) mss)) ->
            exists ml, selects mss idx ml /\ sel_parts mss idx = ml).
  { intros idx Hi. apply enumF_in in Hi. destruct (selects_exists mss idx Hi) as (ml & Hs).
    exists ml. split; [easy|]. now apply sel_parts_ok. }
  rewrite !map_map. cbn [tp_mode mf mg].
  split; [|split; [|split]].
  - rewrite (functions_tp_eq Rops bs dims _ HF). f_equal. unfold tp_functions. rewrite EL.
    apply map_ext_in. intros idx Hi. destruct (SE idx Hi) as (ml & Hs & ->).
    now rewrite (selects_parts _ _ _ (selects_map mf _ _ _ Hs)).
  - rewrite (gradients_tp_eq bs dims _ _ HF HG) by (now rewrite !EL). f_equal. unfold tp_gradients. rewrite EL.
    apply map_ext_in. intros idx Hi. destruct (SE idx Hi) as (ml & Hs & ->).
    now rewrite (sel_parts_ok _ _ _ (selects_map mf _ _ _ Hs)), (sel_parts_ok _ _ _ (selects_map mg _ _ _ Hs)).
  - cbn [basis_dim]. fold dims. intros j Hj. cbn [derivatives]. rewrite HF. cbn [bind].
    unfold mode_index_tuples. rewrite rev_gnitb_rev, EL, map_map. cbn [tp_mode md].
    apply mapM_Ok. intros idx Hi. destruct (SE idx Hi) as (ml & Hs & ->).
    pose proof (der_in bs mss idx ml 0 j HD Hs Hj) as E. cbn [Nat.add] in E.
    unfold der_pick in E. fold dims in E. rewrite E. cbn [bind].
    apply selects_valid in Hs. apply Forall2_length in Hs. rewrite map_length in Hs.
    apply Forall2_length in HM.
    replace (length idx =? length dims)%nat with true; [reflexivity|].
    symmetry. apply Nat.eqb_eq. unfold dims. rewrite map_length. congruence.
  - apply Forall_map_in. intros idx Hi. destruct (SE idx Hi) as (ml & Hs & ->).
    cbn [basis_dim]. fold dims. intros x Hx.
    destruct (modes_split bs mss idx ml x HM Hs Hx) as (vs & cs & HMo). fold dims in HMo.
    pose proof (modes_on_grad _ _ _ _ _ HMo) as HGv.
    exists (fold_right Rmult 1 vs), (gradl 1 vs cs). cbn [tp_mode mf mg md].
    split; [|split; [|split; [|split]]].
    + rewrite <- (blocks_concat dims x Hx) at 1. apply tp_call_R. eapply grad_values_block; eauto.
    + rewrite <- (blocks_concat dims x Hx) at 1. now apply tp_grad_call_ok.
    + eapply gradl_length; eauto.
    + intros j Hj. rewrite <- (blocks_concat dims x Hx) at 1.
      rewrite (tp_call_R _ _ _ _ (modes_on_repl _ _ _ _ _ j HMo Hj)). f_equal.
      rewrite (gradl_nth _ _ _ _ _ j 1 HMo Hj). unfold rprod. ring.
    + intros Ho j Hj. apply off_strips_TP in Ho. rewrite (gradl_nth _ _ _ _ _ j 1 HMo Hj), Rmult_1_l.
      eapply is_derive_ext.
      * intros t. symmetry. apply (tp_val bs mss idx ml); eauto. rewrite upd_length. exact Hx.
      * eapply tpval_deriv; eauto.
Qed.

Lemma basis_ok_all b : wf_basis b -> onb_dims 1 3 b -> basis_ok b.
Proof.
  induction b as [d n|d n|bs ds IH] using basis_ind'; intros Hw Ho.
  - inversion Ho; subst. now apply basis_ok_onb.
  - apply basis_ok_mono.
  - inversion Hw; subst. inversion Ho; subst. apply basis_ok_tp.
    rewrite Forall_forall in *. auto.
Qed.
