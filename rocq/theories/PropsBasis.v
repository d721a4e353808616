(** * C23, C24, C25, C53: monomials, tensor-product bases (modepy/modes.py:500-727, 860-1149) *)
From Coquelicot Require Import Coquelicot.
From Coq Require Import List Arith Bool ZArith Reals Lra Lia.
From Verif Require Import Py PyToolsModel ModelNd ModelShapes ModelSpaces ModelModes ModelBasis
  EnumFacts SpecIndex RSum IntFacts SpecPoly SpecPartial SpecGeometry SpecIntegral ProofNodeTuples
  ProofShapes ProofSpaces
  ProofBasisIndex ProofTPCall ProofMonomial ProofTPGrad ProofBasisDeriv ProofTPOrtho.
Import ListNotations.
Local Open Scope R_scope.

(** C23 *)
Theorem C23_monomial (e : list nat) (x : list R) : length e = length x ->
  monomial Rops e x = Ok (monoval e x) /\
  exists g, grad_monomial Rops e x = Ok g
    /\ has_partials (valR (monomial Rops e)) x g
    /\ forall j, (j < length x)%nat -> diff_monomial Rops e (Z.of_nat j) x = Ok (nth j g 0).
Proof.
  intros H. split; [now apply monomial_val|].
  exists (map (fun j => dmono e j x) (seq 0 (length e))). split; [now apply grad_monomial_val|]. split.
  - split; [rewrite map_length, seq_length; easy|]. intros j Hj. rewrite nth_map_seq by lia.
    eapply is_derive_ext; [|apply monoval_deriv; easy].
    intros t. unfold valR. rewrite monomial_val by (rewrite upd_length; lia). reflexivity.
  - intros j Hj. rewrite nth_map_seq by lia. apply diff_monomial_val; lia.
Qed.
Theorem C23_mismatch (T : Type) (o : vops T) (e : list nat) (x : list T) (j : Z) : length e <> length x ->
  monomial o e x = Err AssertionE /\ grad_monomial o e x = Err AssertionE
  /\ diff_monomial o e j x = Err AssertionE.
Proof.
  intros H. apply Nat.eqb_neq in H. unfold monomial, grad_monomial, diff_monomial. now rewrite H.
Qed.
(** Finding: an axis outside 0..dim-1 (negative ones included) is accepted and the
    function is returned undifferentiated. *)
Theorem C23_axis_refuted : exists e x, diff_monomial Rops e (-1) x = monomial Rops e x
  /\ monomial Rops e x = Ok 9 /\ grad_monomial Rops e x = Ok [6].
Proof.
  exists [2%nat], [3]. split; [|split].
  - reflexivity.
  - rewrite monomial_val by easy. f_equal. simpl. ring.
  - rewrite grad_monomial_val by easy. cbn [length seq map dmono monoval]. f_equal. f_equal. simpl. ring.
Qed.

(** C24, first part: products of the selected factor functions, on slices. *)
Theorem C24_product (bs : list basis) (dims : list nat) fss :
  Forall2 (fun b fs => functions Rops b = Ok fs) bs fss ->
  exists fs, functions Rops (TPBasis bs dims) = Ok fs
    /\ length fs = product_of (map (@length _) fss)
    /\ forall digits parts xs vs, selects fss digits parts ->
         block_values dims parts xs vs ->
         exists f, nth_error fs (mixed_radix (map (@length _) fss) digits) = Some f
           /\ f (concat xs) = Ok (fold_right Rmult 1 vs).
Proof.
  intros H. exists (tp_functions Rops dims fss). split; [|split].
  - apply functions_tp_eq. now apply mapM_Ok_Forall2.
  - rewrite tp_functions_length. reflexivity.
  - intros digits parts xs vs Hs Hb. exists (tp_call Rops dims parts). split.
    + exact (tp_functions_nth Rops dims fss digits parts Hs).
    + now apply tp_call_R.
Qed.

(** C24, second part: for every (nested) tensor-product basis whose orthonormal
    simplex factors have dimension 1 to 3, gradients and derivatives agree with
    each other at every point, and are the partial derivatives at every point
    off the tolerance strips. *)
Theorem C24_gradients (b : basis) : wf_basis b -> onb_dims 1 3 b ->
  exists fs gs dss, functions Rops b = Ok fs /\ gradients Rops b = Ok gs
    /\ length gs = length fs
    /\ (forall j, (j < basis_dim b)%nat -> derivatives Rops b (Z.of_nat j) = Ok (dss j) /\ length (dss j) = length fs)
    /\ forall k f x, nth_error fs k = Some f -> length x = basis_dim b ->
         exists g v c, nth_error gs k = Some g /\ f x = Ok v /\ g x = Ok c
           /\ (forall j, (j < basis_dim b)%nat ->
                 exists d, nth_error (dss j) k = Some d /\ d x = Ok (nth j c 0))
           /\ (off_strips b x -> has_partials (valR f) x c).
Proof.
  intros Hw Ho. destruct (basis_ok_all b Hw Ho) as (ms & H1 & H2 & H3 & H4).
  exists (map mf ms), (map mg ms), (fun j => map (fun m => md m j) ms).
  split; [easy|]. split; [easy|]. split; [now rewrite !map_length|]. split.
  - intros j Hj. split; [now apply H3|now rewrite !map_length].
  - intros k f x Hk Hx. rewrite nth_error_map in Hk.
    destruct (nth_error ms k) as [m|] eqn:Em; [|discriminate]. injection Hk as <-.
    rewrite Forall_forall in H4. destruct (H4 m (nth_error_In _ _ Em) x Hx) as (v & c & E1 & E2 & E3 & E4 & E5).
    exists (mg m), v, c. split; [now rewrite nth_error_map, Em|]. split; [easy|]. split; [easy|]. split.
    + intros j Hj. exists (md m j). split; [now rewrite nth_error_map, Em|auto].
    + intros Hr. split; [congruence|]. intros j Hj. apply E5; [easy|lia].
Qed.

(** The bases the constructors return are of this form. *)
Lemma zip_wf (mk : fspace -> shape -> res basis) bs : forall shs l,
  Forall (fun s => forall sh b, mk s sh = Ok b -> wf_basis b /\ basis_dim b = spatial_dim s) bs ->
  zipM mk bs shs = Ok l -> Forall wf_basis l /\ map basis_dim l = map spatial_dim bs.
Proof.
  induction bs as [|s bs IH]; intros [|sh shs] l H E; cbn [zipM] in E; try discriminate.
  - injection E as <-. split; [constructor|reflexivity].
  - destruct (mk s sh) as [b|] eqn:Eb; [|discriminate]. cbn [bind] in E.
    destruct (zipM mk bs shs) as [l'|] eqn:El; [|discriminate]. injection E as <-.
    inversion H; subst. destruct (IH shs l') as [A B]; auto. destruct (H2 sh b Eb) as [C D].
    split; [constructor; auto|]. cbn [map]. congruence.
Qed.
Theorem C24_constructors (s : fspace) (sh : shape) (b : basis) :
  orthonormal_basis_for_space s sh = Ok b \/ basis_for_space s sh = Ok b
  \/ monomial_basis_for_space s sh = Ok b ->
  wf_basis b /\ basis_dim b = spatial_dim s.
Proof.
  intros [E|[E|E]]; revert sh b E; induction s as [d n|c bs IH] using fspace_ind'; intros [d'|c' k shs] b E;
    cbn in E; try discriminate.
  1: injection E as <-; split; [constructor|reflexivity].
  2: destruct (d <=? 3)%nat; injection E as <-; split; first [constructor|reflexivity].
  3: injection E as <-; split; [constructor|reflexivity].
  1,2: match type of E with (if ?c then _ else _) = _ => destruct c; [discriminate|] end.
  all: match type of E with bind ?t _ = _ => destruct t as [l|] eqn:El; [|discriminate] end;
    cbn [bind] in E; injection E as <-;
    destruct (zip_wf _ bs shs l IH El) as [A B]; rewrite <- B;
    split; [now constructor|]; cbn [basis_dim spatial_dim]; rewrite B; reflexivity.
Qed.

(** Finding: derivatives(axis) of a tensor product with an axis out of range
    (negative ones included) silently returns the undifferentiated functions. *)
Lemma zip_out_of_range {T} (axis : Z) (ders : list (Z -> res (list (bfun (T:=T))))) fss : forall mid dims start,
  length ders = length fss -> length dims = length fss -> length mid = length fss ->
  (axis < Z.of_nat start \/ Z.of_nat (start + sum_nat dims) <= axis)%Z ->
  zipM (fun p (q : nat * (nat * nat)) =>
          let '(mid_i, (start_axis, end_axis)) := q in
          if ((Z.of_nat start_axis <=? axis) && (axis <? Z.of_nat end_axis))%Z
          then let* ds := (fst p) (axis - Z.of_nat start_axis)%Z in getitem ds mid_i
          else getitem (snd p) mid_i)
       (combine ders fss) (combine mid (dim_ranges start dims))
  = zipM (fun fs i => getitem fs i) fss mid.
Proof.
  revert ders. induction fss as [|fs fss IH]; intros [|d0 ders] [|m mid] [|d dims] start H1 H2 H3 Hax;
    try discriminate; [reflexivity|].
  cbn [combine dim_ranges zipM fst snd].
  change (sum_nat (d :: dims)) with (d + sum_nat dims)%nat in Hax.
  replace ((Z.of_nat start <=? axis)%Z && (axis <? Z.of_nat (start + d))%Z) with false.
  2:{ symmetry. apply andb_false_iff. rewrite Z.leb_gt, Z.ltb_ge. lia. }
  rewrite IH; [reflexivity|auto..]. cbn [length] in *; lia.
Qed.
Theorem C24_axis_refuted (bs : list basis) (dims : list nat) (axis : Z) fs :
  length dims = length bs -> (axis < 0 \/ Z.of_nat (total dims) <= axis)%Z ->
  functions Rops (TPBasis bs dims) = Ok fs -> derivatives Rops (TPBasis bs dims) axis = Ok fs.
Proof.
  intros Hd Hax E. rewrite <- E. cbn [derivatives functions].
  destruct (mapM (functions Rops) bs) as [fss|] eqn:EF; [|reflexivity]. cbn [bind].
  pose proof (mapM_length _ _ _ EF) as EL.
  assert (Hm : forall mid, In mid (mode_index_tuples (map (@length _) fss)) -> length mid = length fss).
  { intros mid Hi. unfold mode_index_tuples in Hi. rewrite rev_gnitb_rev in Hi. apply enumF_in in Hi.
    apply Forall2_length in Hi. now rewrite map_length in Hi. }
  revert Hm. generalize (mode_index_tuples (map (@length _) fss)) as mids.
  induction mids as [|mid mids IH]; intros Hm; [reflexivity|]. cbn [mapM].
  rewrite zip_out_of_range; [|rewrite map_length; congruence|congruence|apply Hm; now left|exact Hax].
  replace (length mid =? length dims)%nat with true.
  2:{ symmetry. apply Nat.eqb_eq. rewrite (Hm mid); [congruence|now left]. }
  rewrite IH; [reflexivity|]. intros; apply Hm; now right.
Qed.

(** On a simplex, negative axes count from the end, and other axes out of range raise
    IndexError at every point. *)
Lemma onb_grad_length d n gs : simplex_onb_gradients Rops d n = Ok gs -> Forall (fun g => forall x c, g x = Ok c -> length c = d) gs.
Proof.
  intros E. destruct d as [|[|[|[|d]]]]; try discriminate; cbn [simplex_onb_gradients] in E; injection E as <-; apply Forall_map, Forall_forall; intros id _ x c H.
  - unfold grad_pkdo_1d in H. destruct x as [|r [|]]; try discriminate; destruct id as [|i [|]]; try discriminate. now injection H as <-.
  - unfold grad_pkdo_2d_fn in H. destruct x as [|r [|s [|]]]; try discriminate; destruct id as [|i [|j [|]]]; try discriminate.
    destruct (grad_pkdo_2d Rops i j r s). now injection H as <-.
  - unfold grad_pkdo_3d_fn in H. destruct x as [|r [|s [|t [|]]]]; try discriminate; destruct id as [|i [|j [|k [|]]]]; try discriminate.
    destruct (grad_pkdo_3d Rops i j k r s t) as ((dr, ds), dt). now injection H as <-.
Qed.
Lemma onb_derivatives d n gs axis k f : simplex_onb_gradients Rops d n = Ok gs -> nth_error (map (fun (g : bgrad) => (fun x => let* c := g x in getitem_z c axis) : bfun) gs) k = Some f ->
  exists g, nth_error gs k = Some g /\ (forall x c, g x = Ok c -> length c = d) /\ f = (fun x => let* c := g x in getitem_z c axis).
Proof.
  intros E H. pose proof (onb_grad_length d n gs E) as L. clear E. revert k H. induction L as [|g gs' Hg _ IH]; intros [|k] H; try discriminate; cbn [map nth_error] in H.
  - injection H as <-. exists g. auto.
  - exact (IH k H).
Qed.
Theorem C24_negative_axis d n j fs gs : (1 <= j <= d)%nat ->
  derivatives Rops (SimplexONB d n) (- Z.of_nat j) = Ok fs -> derivatives Rops (SimplexONB d n) (Z.of_nat (d - j)) = Ok gs ->
  length fs = length gs /\ forall k f g, nth_error fs k = Some f -> nth_error gs k = Some g -> forall x, f x = g x.
Proof.
  intros Hj E1 E2. cbn [derivatives] in E1, E2. destruct (simplex_onb_gradients Rops d n) as [hs|] eqn:E; [|discriminate]. cbn [bind] in E1, E2.
  injection E1 as <-. injection E2 as <-. split; [now rewrite !map_length|]. intros k f g Hf Hg x.
  destruct (onb_derivatives d n hs _ k f E Hf) as (h & Hh & L & ->). destruct (onb_derivatives d n hs _ k g E Hg) as (h' & Hh' & _ & ->).
  assert (h' = h) as -> by congruence. destruct (h x) as [c|] eqn:Ex; [|reflexivity]. cbn [bind]. pose proof (L x c Ex) as Lc. unfold getitem_z. rewrite Lc.
  replace (- Z.of_nat j <? 0)%Z with true by (symmetry; apply Z.ltb_lt; lia). replace (0 <=? - Z.of_nat j + Z.of_nat d)%Z with true by (symmetry; apply Z.leb_le; lia).
  replace (Z.of_nat (d - j) <? 0)%Z with false by (symmetry; apply Z.ltb_ge; lia). f_equal. lia.
Qed.
Theorem C24_axis_out_of_range d n axis fs : (axis < - Z.of_nat d \/ Z.of_nat d <= axis)%Z -> derivatives Rops (SimplexONB d n) axis = Ok fs ->
  Forall (fun f => forall x, length x = d -> f x = Err IndexError) fs.
Proof.
  intros Ha E1. assert (Hd : (1 <= d <= 3)%nat). { destruct d as [|[|[|[|d]]]]; try lia; discriminate. }
  destruct (basis_ok_onb d n Hd) as (ms & _ & Eg & _ & HM). cbn [derivatives gradients] in E1, Eg. rewrite Eg in E1. cbn [bind] in E1. injection E1 as <-.
  rewrite map_map. apply Forall_map. eapply Forall_impl; [|exact HM]. cbv beta. intros m Hm x Lx. cbn [basis_dim] in Hm. destruct (Hm x Lx) as (v & c & _ & EC & Lc & _). rewrite EC. cbn [bind].
  unfold getitem_z. rewrite Lc. destruct (Z.ltb_spec axis 0).
  - replace (0 <=? axis + Z.of_nat d)%Z with false by (symmetry; apply Z.leb_gt; lia). reflexivity.
  - unfold getitem. replace (nth_error c (Z.to_nat axis)) with (@None R); [reflexivity|]. symmetry. apply nth_error_None. rewrite Lc. lia.
Qed.
Example C24_negative_axis_example : exists fs gs, derivatives Rops (SimplexONB 2 3) (-1) = Ok fs /\ derivatives Rops (SimplexONB 2 3) 1 = Ok gs /\ length fs = 10%nat.
Proof. eexists. eexists. split; [reflexivity|]. split; reflexivity. Qed.

(** C25 *)
Lemma nth_error_map_inv {A B} (f : A -> B) l k y : nth_error (map f l) k = Some y ->
  exists x, nth_error l k = Some x /\ f x = y.
Proof.
  revert k. induction l as [|a l IH]; intros [|k] H; try discriminate.
  - injection H as <-. now exists a.
  - apply IH, H.
Qed.
Theorem C25_orthonormal (b : basis) (s : shape) : onb_on b s ->
  exists fs phis, functions Rops b = Ok fs /\ length phis = length fs
    /\ (forall k f phi, nth_error fs k = Some f -> nth_error phis k = Some phi ->
          (exists D, is_poly (basis_dim b) D phi)
          /\ forall x, length x = basis_dim b -> good_point b x -> f x = Ok (phi x))
    /\ (forall k l phi psi, nth_error phis k = Some phi -> nth_error phis l = Some psi ->
          is_int s (fun x => phi x * psi x) (if (k =? l)%nat then 1 else 0)).
Proof.
  intros H. destruct (onb_ok_all b s H) as (ms & H1 & H2 & H3).
  exists (map fst ms), (map snd ms). split; [easy|]. split; [now rewrite !map_length|]. split.
  - intros k f phi Hf Hp. apply nth_error_map_inv in Hf, Hp.
    destruct Hf as (m & Em & <-), Hp as (m' & Em' & <-). unfold omode in *. rewrite Em in Em'.
    injection Em' as <-. rewrite Forall_forall in H2. apply H2. eapply nth_error_In; eauto.
  - intros k l phi psi Hp Hq. apply nth_error_map_inv in Hp, Hq.
    destruct Hp as (m & Em & <-), Hq as (m' & Em' & <-). now apply (H3 k l m m').
Qed.

Lemma pn_dims_weaken s : pn_dims 1 3 s -> pn_dims 0 3 s.
Proof.
  induction s as [d n|c bs IH] using fspace_ind'; intros H; inversion H; subst; constructor; [lia|].
  match goal with H : Forall (pn_dims 1 3) bs |- _ => clear -IH H; induction H end; constructor; inversion IH; subst; auto.
Qed.
(** The constructor produces such bases, for every matching space and shape
    with simplex factors of dimension 1 to 3. *)
Theorem C25_for_space (s : fspace) (sh : shape) : fits s sh -> pn_dims 1 3 s ->
  exists b fs phis, orthonormal_basis_for_space s sh = Ok b
    /\ functions Rops b = Ok fs /\ length fs = space_dim s /\ length phis = space_dim s
    /\ orthonormality_weight b = Ok 1
    /\ (forall k f phi, nth_error fs k = Some f -> nth_error phis k = Some phi ->
          (exists D, is_poly (spatial_dim s) D phi)
          /\ forall x, length x = spatial_dim s -> good_point b x -> f x = Ok (phi x))
    /\ (forall k l phi psi, nth_error phis k = Some phi -> nth_error phis l = Some psi ->
          is_int sh (fun x => phi x * psi x) (if (k =? l)%nat then 1 else 0)).
Proof.
  intros Hf Hp. assert (Hp0 : pn_dims 0 3 s) by (now apply pn_dims_weaken).
  destruct (c06_onb s sh Hf Hp0) as (b & fs & ids & E & _ & Ef & Lf & _).
  destruct (onb_for_space_on s sh b Hf Hp E) as [Ho Hd].
  destruct (C25_orthonormal b sh Ho) as (fs' & phis & Ef' & L & H1 & H2).
  assert (fs' = fs) by congruence. subst fs'.
  exists b, fs, phis. rewrite <- Hd.
  split; [easy|]. split; [easy|]. split; [easy|]. split; [congruence|]. split; [|split; easy].
  clear -Ho. revert sh Ho. induction b as [d n|d n|bs ds IH] using basis_ind'; intros sh Ho; inversion Ho; subst.
  - reflexivity.
  - cbn [orthonormality_weight].
    assert (E : mapM orthonormality_weight bs = Ok (map (fun _ => 1) bs)).
    { match goal with H : Forall2 onb_on bs ss |- _ => clear -IH H; induction H; [reflexivity|] end.
      inversion IH; subst. cbn [mapM map]. rewrite (H3 _ H). cbn [bind]. rewrite IHForall2 by easy. reflexivity. }
    rewrite E. cbn [bind]. f_equal. clear. induction bs as [|b bs IH]; [reflexivity|].
    cbn [map fold_left]. rewrite Rmult_1_r. exact IH.
Qed.

(** Hypercubes of every dimension d: there are no tolerance strips, so the code's
    functions themselves are orthonormal on [-1,1]^d. *)
Lemma good_point_segments bs k : Forall2 onb_on bs (map Simplex (repeat 1%nat k)) ->
  forall x, good_point_all bs x.
Proof.
  revert k. induction bs as [|b bs IH]; intros k H x; [easy|].
  destruct k as [|k]; [inversion H|]. cbn [repeat map] in H. inversion H as [|? ? ? ? Hb Hbs]; subst.
  inversion Hb; subst. split; [exact I|]. now apply IH with k.
Qed.
Lemma fits_cube d n sh : mk_Hypercube d = Ok sh -> fits (mk_QN d n) sh.
Proof.
  rewrite mk_hypercube_eq. unfold mk_QN. intros E. injection E as <-.
  destruct (Nat.eqb_spec d 1) as [->|Hd]; [constructor|].
  unfold flat_product. replace (total (repeat 1%nat d)) with (total (map shape_dim (map Simplex (repeat 1%nat d)))).
  2:{ f_equal. rewrite map_map. cbn [shape_dim]. apply map_id. }
  constructor. rewrite space_flatten_factors. clear. induction d; cbn; constructor; auto. constructor.
Qed.
Lemma pn_dims_cube d n : pn_dims 1 3 (mk_QN d n).
Proof.
  unfold mk_QN. destruct (Nat.eqb_spec d 1) as [->|Hd]; [constructor; lia|].
  constructor. rewrite space_flatten_factors. clear. induction d; cbn; constructor; auto. constructor; lia.
Qed.

Theorem C25_hypercube (d order : nat) : exists sh b fs, mk_Hypercube d = Ok sh
  /\ orthonormal_basis_for_space (mk_QN d order) sh = Ok b
  /\ functions Rops b = Ok fs /\ length fs = ((order + 1) ^ d)%nat
  /\ (forall f x, In f fs -> length x = d -> exists v, f x = Ok v)
  /\ forall k l f g, nth_error fs k = Some f -> nth_error fs l = Some g ->
       is_int sh (fun x => valR f x * valR g x) (if (k =? l)%nat then 1 else 0).
Proof.
  eexists. assert (Em := mk_hypercube_eq d). set (sh := if (d =? 1)%nat then _ else _) in Em.
  pose proof (fits_cube d order sh Em) as Hf. pose proof (pn_dims_cube d order) as Hp.
  destruct (C25_for_space _ _ Hf Hp) as (b & fs & phis & Eb & Ef & Lf & Lp & _ & H1 & H2).
  destruct (onb_for_space_on _ _ b Hf Hp Eb) as [Ho Hd].
  destruct (c08_qn d order) as (Hsd & Hspd & _).
  exists b, fs. split; [exact Em|]. split; [exact Eb|]. split; [exact Ef|]. split; [congruence|].
  assert (Hg : forall x, good_point b x).
  { intros x. clear -Ho. unfold sh in Ho. destruct (d =? 1)%nat.
    - inversion Ho; subst. exact I.
    - inversion Ho; subst. apply good_point_TP. now apply good_point_segments with d. }
  assert (Hval : forall k f, nth_error fs k = Some f -> exists phi, nth_error phis k = Some phi
            /\ forall x, length x = d -> f x = Ok (phi x)).
  { intros k f Hk. destruct (nth_error phis k) as [phi|] eqn:Ep.
    - exists phi. split; [easy|]. intros x Hx. apply (H1 k f phi); auto. congruence.
    - apply nth_error_None in Ep. assert (nth_error fs k <> None) by congruence.
      apply nth_error_Some in H. lia. }
  split.
  - intros f x Hi Hx. apply In_nth_error in Hi. destruct Hi as (k & Hk).
    destruct (Hval k f Hk) as (phi & _ & E). eauto.
  - intros k l f g Hk Hl. destruct (Hval k f Hk) as (phi & Ek & Hphi).
    destruct (Hval l g Hl) as (psi & El & Hpsi).
    eapply is_int_ext; [|exact (H2 k l phi psi Ek El)].
    intros x Hx. pose proof (in_shape_dim b sh x Ho Hx) as Lx. rewrite Hd, Hsd in Lx.
    unfold valR. rewrite Hphi, Hpsi by easy. reflexivity.
Qed.

(** C53.  Finding: the zero-dimensional orthonormal basis has the constant
    function 2, so its square integrates to 4 over the point, not 1. *)
Theorem C53_refuted (order : nat) : exists f,
  orthonormal_basis_for_space (PN 0 order) (Simplex 0) = Ok (SimplexONB 0 order)
  /\ functions Rops (SimplexONB 0 order) = Ok [f] /\ f [] = Ok 2
  /\ orthonormality_weight (SimplexONB 0 order) = Ok 1
  /\ is_int (Simplex 0) (fun x => valR f x * valR f x) 4.
Proof.
  eexists. split; [reflexivity|]. split; [reflexivity|]. split; [|split; [reflexivity|]].
  - cbn. f_equal; lra.
  - cbn. lra.
Qed.

(** Concrete cases: a triangular prism x a segment. *)
Example C24_example : exists b,
  orthonormal_basis_for_space (TPSpace STensorProduct [PN 2 2; PN 1 3])
     (TPShape CTensorProduct 3 [Simplex 2; Simplex 1]) = Ok b
  /\ wf_basis b /\ onb_dims 1 3 b /\ off_strips b [-1/2; -1/3; 1/5]
  /\ onb_on b (TPShape CTensorProduct 3 [Simplex 2; Simplex 1]).
Proof.
  eexists. split; [reflexivity|]. split; [|split; [|split]].
  - apply (wf_tp [SimplexONB 2 2; SimplexONB 1 3]). repeat constructor.
  - repeat constructor; lia.
  - apply (off_strips_TP [SimplexONB 2 2; SimplexONB 1 3]).
    cbn [off_strips off_strips_all basis_dim firstn skipn nth]. split; [|split; exact I].
    rewrite Rabs_left by lra. apply Rlt_trans with 1; [|lra].
    apply Rlt_le_trans with (/ 1); [apply Rinv_lt_contravar; lra|lra].
  - apply (oo_tp [SimplexONB 2 2; SimplexONB 1 3]). repeat constructor; lia.
Qed.
Example C25_example : exists s sh, fits s sh /\ pn_dims 1 3 s /\ space_dim s = 40%nat.
Proof.
  exists (TPSpace STensorProduct [PN 3 2; PN 1 3]), (TPShape CTensorProduct 4 [Simplex 3; Simplex 1]).
  split; [|split; [|reflexivity]].
  - apply (fits_tp STensorProduct CTensorProduct [PN 3 2; PN 1 3] [Simplex 3; Simplex 1]). repeat constructor.
  - repeat constructor; lia.
Qed.
Example C23_example : length [2%nat;0%nat;3%nat] = length [1/2; -1; 3/4].
Proof. reflexivity. Qed.
Print Assumptions C23_monomial.
Print Assumptions C23_mismatch.
Print Assumptions C23_axis_refuted.
Print Assumptions C24_product.
Print Assumptions C24_gradients.
Print Assumptions C24_constructors.
Print Assumptions C24_axis_refuted.
Print Assumptions C24_negative_axis.
Print Assumptions C24_axis_out_of_range.
Print Assumptions C25_orthonormal.
Print Assumptions C25_for_space.
Print Assumptions C25_hypercube.
Print Assumptions C53_refuted.
