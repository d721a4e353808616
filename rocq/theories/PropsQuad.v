(** * C32, C33, C44: transformed and tensor-product rules, degrees *)
From Coquelicot Require Import Coquelicot.
From Coq Require Import List Arith Bool ZArith QArith Reals Lra Lia.
From Verif Require Import Py PyToolsModel ModelNd ModelShapes ModelSpaces ModelNodes ModelModes ModelQuad ModelGM.
From Verif Require Import RSum EnumFacts IntFacts SpecIndex SpecGeometry SpecPoly SpecIntegral ProofNodeTuples ProofDirichlet
  ProofGM ProofQuad PropsGM.
Import ListNotations.
Local Open Scope R_scope.

(** ** C32 *)

(** A one-dimensional rule integrates every polynomial of degree at most [n] over [lo, hi]. *)
Definition exact_1d (q : quad) (lo hi : R) (n : nat) : Prop :=
  forall phi, is_poly 1 n phi ->
    exists v : R, is_RInt (fun t => phi [t]) lo hi v /\ q_call q (fun x => Ok (phi x)) = Ok v.

Theorem C32_exact q left right n q' : wf_quad q -> q_dim q = 1%nat -> exact_1d q (-1) 1 n ->
  transformed_1d q left right = Ok q' -> exact_1d q' left right n.
Proof.
  intros W D H E phi Hp. unfold transformed_1d in E. destruct (Rle_dec (right - left) 0) as [|Hlr]; [discriminate|].
  assert (E' := E). injection E as <-.
  set (h := fun x => left + (x + 1) / 2 * (right - left)).
  destruct (H (fun l => phi (map h l))) as (v & Hv & Hq).
  { apply (is_poly_affine_coords 1 n phi h ((right - left) / 2) (left + (right - left) / 2)); [|easy]. intros c. unfold h. field. }
  exists ((right - left) / 2 * v). split.
  - cbv beta in Hv. cbn [map] in Hv.
    pose proof (is_RInt_comp_lin (fun t => phi [h t]) (2 / (right - left)) (-1 - 2 * left / (right - left)) left right v) as C.
    replace (2 / (right - left) * left + (-1 - 2 * left / (right - left))) with (-1) in C by (field; lra).
    replace (2 / (right - left) * right + (-1 - 2 * left / (right - left))) with 1 in C by (field; lra).
    specialize (C Hv). pose proof (isR_scal _ _ _ ((right - left) / 2) _ C) as C'.
    eapply is_RInt_ext; [|exact C']. intros t _. cbv beta.
    replace (h (2 / (right - left) * t + (-1 - 2 * left / (right - left)))) with t by (unfold h; field; lra).
    unfold scal; cbn; unfold mult; cbn. field. lra.
  - pose proof (q_call_rule q (fun x => Ok (phi (map h x))) (fun x => phi (map h x)) W ltac:(reflexivity)) as Q1.
    rewrite Hq in Q1. injection Q1 as ->.
    match goal with |- q_call ?q' _ = _ => assert (W' : wf_quad q') end.
    { destruct W as [W1 W2]. split; cbn [q_nodes q_weights q_dim].
      - apply Forall_map. eapply Forall_impl; [|exact W1]. intros x Hx. now rewrite map_length.
      - now rewrite !map_length. }
    rewrite (q_call_rule _ _ phi W') by reflexivity. f_equal. unfold rule. cbn [q_nodes q_weights]. rewrite map_map.
    destruct W as [_ W2]. generalize (q_nodes q) (q_weights q) W2. clear. intros xs. fold h.
    unfold dotR. induction xs as [|x xs IH]; intros [|w ws] L; try discriminate; cbn [map combine fold_right fst snd]; [ring|].
    rewrite IH by (cbn in L; lia). ring.
Qed.
Theorem C32_exact_to q left right q' : transformed_1d q left right = Ok q' -> exact_to q' = exact_to q.
Proof. unfold transformed_1d. destruct (Rle_dec _ _); [discriminate|]. intros E. injection E as <-. reflexivity. Qed.
Theorem C32_empty q left right : right <= left -> transformed_1d q left right = Err ValueError.
Proof. intros H. unfold transformed_1d. destruct (Rle_dec _ _); [reflexivity|lra]. Qed.
Theorem C32_defined q left right : left < right -> exists q', transformed_1d q left right = Ok q'.
Proof. intros H. unfold transformed_1d. destruct (Rle_dec _ _); [lra|]. eexists; reflexivity. Qed.
(** The nodes move along the affine map that takes -1 to [left] and 1 to [right]. *)
Theorem C32_nodes q left right q' : transformed_1d q left right = Ok q' ->
  q_nodes q' = map (map (fun x => left * ((1 - x) / 2) + right * ((1 + x) / 2))) (q_nodes q).
Proof.
  unfold transformed_1d. destruct (Rle_dec _ _); [discriminate|]. intros E. injection E as <-. cbn [q_nodes].
  apply map_ext. intros x. apply map_ext. intros c. field.
Qed.
(** Every Grundmann-Moeller rule on the interval is such a rule. *)
Example C32_example s : exists q, gm_quad s 1 = Ok q /\ wf_quad q /\ q_dim q = 1%nat /\ exact_1d q (-1) 1 (2 * s + 1).
Proof.
  destruct (gm_quad_pos s 1 ltac:(lia)) as (d & Ed & G & E). eexists. split; [exact E|].
  destruct (C35_nodes s 1 _ E) as [L N]. split; [|split; [reflexivity|]].
  - split; [|easy]. apply Forall_forall. intros x Hx. now destruct (N x Hx).
  - intros phi Hp. destruct (C35_exact s 1 _ phi (fun x => Ok (phi x)) E Hp) as (v & Hv & Hq); [reflexivity|].
    exists v. split; [|exact Hq]. cbn [is_int is_int_simplex] in Hv. destruct Hv as (g & H1 & H2).
    replace (-1 + 2) with 1 in H2 by ring. eapply is_RInt_ext; [|exact H2]. intros t Ht.
    rewrite Rmin_left, Rmax_right in Ht by lra. rewrite <- H1 by lra. reflexivity.
Qed.

(** ** C44 *)
(** Finite numbers and the sentinel. *)
Definition deg (a : pynum) : Prop := match a with NNpInf _ => False | _ => True end.
(** All comparisons of such values are defined, and consistent: exactly one of
    [<], [==], [>] holds and [<=], [>=] are their unions. *)
Theorem C44_trichotomy a b : deg a -> deg b ->
  exists lt le gt ge, py_lt a b = Ok lt /\ py_le a b = Ok le /\ py_gt a b = Ok gt /\ py_ge a b = Ok ge
  /\ ((lt = true /\ py_eq a b = false /\ gt = false) \/ (lt = false /\ py_eq a b = true /\ gt = false)
      \/ (lt = false /\ py_eq a b = false /\ gt = true))
  /\ le = (lt || py_eq a b)%bool /\ ge = (gt || py_eq a b)%bool.
Proof.
  intros Ha Hb. destruct a as [a|[]|], b as [b|[]|]; try easy.
  - unfold py_lt, py_le, py_gt, py_ge, py_eq. rewrite !num_le_fin. cbn [num_lt num_eq refl].
    exists (Qlt_bool a b), (Qle_bool a b), (Qlt_bool b a), (Qle_bool b a). repeat (split; [reflexivity|]).
    unfold Qlt_bool. destruct (Qle_bool a b) eqn:E1, (Qle_bool b a) eqn:E2; cbn [negb].
    + assert (Qeq_bool a b = true) as -> by (apply Qeq_bool_iff, Qle_antisym; now apply Qle_bool_iff). cbn. tauto.
    + assert (Qeq_bool a b = false) as ->; [|cbn; tauto]. destruct (Qeq_bool a b) eqn:Q; [|reflexivity]. apply Qeq_bool_iff in Q.
      assert (H : (b <= a)%Q) by (rewrite Q; apply Qle_refl). apply Qle_bool_iff in H. congruence.
    + assert (Qeq_bool a b = false) as ->; [|cbn; tauto]. destruct (Qeq_bool a b) eqn:Q; [|reflexivity]. apply Qeq_bool_iff in Q.
      assert (H : (a <= b)%Q) by (rewrite Q; apply Qle_refl). apply Qle_bool_iff in H. congruence.
    + pose proof (Qle_bool_total _ _ E1). congruence.
  - exists true, true, false, false. cbn. tauto.
  - exists false, false, true, true. cbn. tauto.
  - exists false, true, false, true. cbn. tauto.
Qed.
Theorem C44_transitive a b c : deg a -> deg b -> deg c ->
  py_le a b = Ok true -> py_le b c = Ok true -> py_le a c = Ok true.
Proof.
  intros Ha Hb Hc. destruct a as [a|[]|], b as [b|[]|], c as [c|[]|]; try easy.
  unfold py_le. rewrite !num_le_fin. cbn [refl]. intros H1 H2. injection H1 as H1. injection H2 as H2. f_equal. now apply (Qle_bool_trans _ b).
Qed.
Theorem C44_antisymmetric a b : deg a -> deg b -> py_le a b = Ok true -> py_le b a = Ok true -> py_eq a b = true.
Proof.
  intros Ha Hb. destruct a as [a|[]|], b as [b|[]|]; try easy.
  unfold py_le. rewrite !num_le_fin. cbn [refl]. intros H1 H2. injection H1 as H1. injection H2 as H2. cbn.
  apply Qeq_bool_iff, Qle_antisym; now apply Qle_bool_iff.
Qed.
(** The sentinel is above every finite number, strictly, and equal only to itself. *)
Theorem C44_top r : py_lt (NFin r) NInf = Ok true /\ py_gt NInf (NFin r) = Ok true /\ py_ge NInf (NFin r) = Ok true
  /\ py_le NInf (NFin r) = Ok false /\ py_eq NInf (NFin r) = false /\ py_eq NInf NInf = true.
Proof. repeat split. Qed.
Lemma min_least (P : pynum -> Prop) :
  (forall a, P a -> py_le a a = Ok true) ->
  (forall a b c, P a -> P b -> P c -> py_le a b = Ok true -> py_le b c = Ok true -> py_le a c = Ok true) ->
  (forall a b, P a -> P b -> exists lt : bool, py_lt a b = Ok lt /\ (if lt then py_le a b = Ok true else py_le b a = Ok true)) ->
  forall ds, ds <> [] -> Forall P ds ->
  exists d, py_min (map Ok ds) = Ok d /\ In d ds /\ forall d', In d' ds -> py_le d d' = Ok true.
Proof.
  intros Re Tr Tot ds Hne F. destruct ds as [|d0 ds]; [easy|]. inversion F as [|? ? F0 F']; subst. cbn [map py_min bind]. clear Hne F.
  revert d0 F0. induction F' as [|x ds Hx F' IH]; intros cur Hc; cbn [map py_min_from bind].
  - exists cur. split; [reflexivity|]. split; [now left|]. intros d' [<-|[]]. now apply Re.
  - destruct (Tot x cur Hx Hc) as (lt & H1 & H2). rewrite H1. cbn [bind].
    destruct (IH (if lt then x else cur)) as (d & Ed & Id & Md); [now destruct lt|]. exists d. split; [exact Ed|].
    assert (Hd : P d). { destruct Id as [<-|Id]; [now destruct lt|]. rewrite Forall_forall in F'. now apply F'. }
    split.
    + destruct Id as [<-|Id]; [destruct lt; [right; now left|now left]|right; now right].
    + specialize (Md (if lt then x else cur) (or_introl eq_refl)) as M0. intros d' Hd'.
      destruct Hd' as [<-|[<-|Hd']]; [| |apply Md; now right].
      * destruct lt; [|exact M0]. now apply (Tr d x cur).
      * destruct lt; [exact M0|]. now apply (Tr d cur x).
Qed.
Theorem C44_min ds : ds <> [] -> Forall deg ds ->
  exists d, py_min (map Ok ds) = Ok d /\ In d ds /\ forall d', In d' ds -> py_le d d' = Ok true.
Proof.
  apply min_least.
  - intros [x|[]|] Hx; try easy. unfold py_le. rewrite num_le_fin. cbn [refl]. f_equal. apply Qle_bool_iff, Qle_refl.
  - exact C44_transitive.
  - intros [a|[]|] [b|[]|] Ha Hb; try easy.
    + exists (Qlt_bool a b). split; [reflexivity|]. unfold py_le. rewrite !num_le_fin. cbn [refl]. unfold Qlt_bool.
      destruct (Qle_bool b a) eqn:E; cbn [negb]; [reflexivity|]. f_equal. now apply Qle_bool_total.
    + now exists true.
    + now exists false.
    + now exists false.
Qed.
(** Likewise among finite numbers and [np.inf]. *)
Theorem C44_min_float ds : ds <> [] -> Forall (fun a => a <> NInf /\ a <> NNpInf false) ds ->
  exists d, py_min (map Ok ds) = Ok d /\ In d ds /\ forall d', In d' ds -> py_le d d' = Ok true.
Proof.
  apply min_least.
  - intros [x|[]|] [H1 H2]; try easy. unfold py_le. rewrite num_le_fin. cbn [refl]. f_equal. apply Qle_bool_iff, Qle_refl.
  - intros [a|[]|] [b|[]|] [c|[]|] [] [] []; try easy. unfold py_le. rewrite !num_le_fin. cbn [refl]. intros K1 K2. injection K1 as K1.
    injection K2 as K2. f_equal. now apply (Qle_bool_trans _ b).
  - intros [a|[]|] [b|[]|] [] []; try easy.
    + exists (Qlt_bool a b). split; [reflexivity|]. unfold py_le. rewrite !num_le_fin. cbn [refl]. unfold Qlt_bool.
      destruct (Qle_bool b a) eqn:E; cbn [negb]; [reflexivity|]. f_equal. now apply Qle_bool_total.
    + now exists true.
    + now exists false.
    + now exists false.
Qed.
Theorem C44_add r : py_add_inf NInf (NFin r) = Ok NInf.
Proof. reflexivity. Qed.
(** The sentinel is not the only infinity in the code: ZeroDimensionalQuadrature
    advertises [np.inf], which the sentinel cannot be compared with, and which
    [isinf] does not recognise; adding from the left is not supported either. *)
Theorem C44_two_infinities_refuted :
  exact_to zero_dim_quad = Ok (NNpInf true)
  /\ py_isinf (NNpInf true) = false
  /\ py_lt (NNpInf true) NInf = Err TypeError /\ py_ge NInf (NNpInf true) = Err TypeError /\ py_eq NInf (NNpInf true) = false
  /\ (exists q0, gm_quad 0 0 = Ok q0 /\ tp_quad [q0; zero_dim_quad] = Err TypeError)
  /\ (forall r, py_add_inf (NFin r) NInf = Err TypeError).
Proof.
  repeat (split; [reflexivity|]). split; [|reflexivity]. eexists. split; [reflexivity|].
  unfold tp_quad. destruct (ProofTPNodes.tensor_product_pts_ok (map quad_points [mkQuad false 0 [[]] [1] (Some NInf); zero_dim_quad])) as (x & Ex & _ & _ & C0 & _).
  { repeat constructor. }
  destruct (tp_weights [mkQuad false 0 [[]] [1] (Some NInf); zero_dim_quad]) as (ws & Ew & Hw).
  rewrite Ex. cbn [bind]. rewrite Ew. cbn [bind]. rewrite Hw. rewrite C0 by reflexivity. cbn. reflexivity.
Qed.
Example C44_example : deg (NFin (3 # 1)) /\ deg NInf /\ py_min [Ok NInf; Ok (NFin (3 # 1)); Ok (NFin (5 # 1))] = Ok (NFin (3 # 1)).
Proof. repeat split. Qed.

(** ** C33 *)
Inductive sh_ok : shape -> Prop :=
| sh_simplex d : sh_ok (Simplex d)
| sh_tp c bs : Forall sh_ok bs -> sh_ok (TPShape c (sum_nat (map shape_dim bs)) bs).
Lemma in_shape_len s : sh_ok s -> forall x, in_shape s x -> length x = shape_dim s.
Proof.
  induction s as [d|c n bs IH] using shape_ind'; intros H x Hx.
  - now destruct Hx.
  - inversion H as [|? ? F]; subst. apply in_shape_TP in Hx. cbn [shape_dim]. apply in_shapes_total_length; [|easy].
    clear Hx H. induction IH as [|b bs Hb IH IHs]; [constructor|]. inversion F; subst. constructor; [auto|auto].
Qed.

(** A rule for polynomials of total degree at most [n] on an element. *)
Definition integrates (q : quad) (s : shape) (n : nat) : Prop :=
  forall phi, is_poly (shape_dim s) n phi -> exists v, is_int s phi v /\ q_call q (fun x => Ok (phi x)) = Ok v.
Lemma integrates_exact_on q s n : wf_quad q -> (integrates q s n <-> exact_on s q n).
Proof.
  intros W. split.
  - intros H phi Hp. destruct (H phi Hp) as (v & Hv & Hq). rewrite (q_call_rule q _ phi W) in Hq by reflexivity. injection Hq as <-. exact Hv.
  - intros H phi Hp. exists (rule q phi). split; [now apply H|now apply q_call_rule].
Qed.

(** Applied to a product of functions of the factors' points, the product rule is
    the product of the rules. *)
Theorem C33_product quads q fs rs F : Forall wf_quad quads -> tp_quad quads = Ok q -> length fs = length quads ->
  Forall2 (fun qf r => q_call (fst qf) (fun x => Ok (snd qf x)) = Ok r) (combine quads fs) rs ->
  (forall xs, Forall2 (fun x q => In x (q_nodes q)) xs quads -> F (concat xs) = Ok (prod_app fs xs)) ->
  q_call q F = Ok (fold_right Rmult 1 rs).
Proof.
  intros W E L HR HF.
  set (F' := fun x => match F x with Ok v => v | Err _ => 0 end).
  pose proof (tp_quad_wf quads q W E) as Wq.
  assert (NI : forall x, In x (q_nodes q) -> exists xs, x = concat xs /\ Forall2 (fun x q => In x (q_nodes q)) xs quads).
  { destruct (tp_quad_inv quads q W E) as (_ & N & _). rewrite N. intros x Hx. apply in_map_iff in Hx. destruct Hx as (idx & <- & Hi).
    exists (pick [] (map q_nodes quads) idx). split; [reflexivity|]. apply enumF_in in Hi. clear -Hi. revert idx Hi.
    induction quads as [|a quads IH]; intros idx H; inversion H as [|i n r ns Hi Hr]; subst; [constructor|].
    unfold pick in *. cbn [map combine fst snd]. constructor; [now apply nth_In|now apply IH]. }
  rewrite (q_call_rule q F F' Wq).
  - f_equal. rewrite (tp_rule_prod quads q fs F' W E L) by (intros xs Hx; unfold F'; now rewrite HF).
    f_equal. clear -W HR L. revert fs rs L HR. induction W as [|a quads Wa W IH]; intros [|f fs] rs L HR; try discriminate.
    + inversion HR. reflexivity.
    + cbn [combine] in HR. inversion HR as [|? r ? rs' H1 H2]; subst. cbn [combine map fst snd]. rewrite (IH fs rs') by (try easy; cbn in L; lia).
      f_equal. cbn [fst snd] in H1. rewrite (q_call_rule a _ f Wa) in H1 by reflexivity. now injection H1.
  - intros x Hx. destruct (NI x Hx) as (xs & -> & Hxs). unfold F'. now rewrite HF.
Qed.
(** Exactness: if every factor integrates total degree [n] on its element so does
    the product rule on the product element. *)
Theorem C33_exact quads shapes q c n : Forall wf_quad quads -> tp_quad quads = Ok q ->
  Forall2 (fun q s => sh_ok s /\ q_dim q = shape_dim s /\ integrates q s n) quads shapes ->
  integrates q (TPShape c (sum_nat (map shape_dim shapes)) shapes) n.
Proof.
  intros W E H. apply integrates_exact_on; [now apply (tp_quad_wf quads)|].
  apply (tp_exact_on quads shapes); [easy|easy| |reflexivity].
  clear E. revert W. induction H as [|a b qs bs (H1 & H2 & H3) H IH]; intros W; inversion W; subst; constructor; [|auto].
  split; [now apply integrates_exact_on|]. split; [easy|]. now apply in_shape_len.
Qed.
(** ... in particular to the advertised degree, when the factors are exact to theirs. *)
Definition honest (q : quad) (s : shape) : Prop :=
  forall e n, exact_to q = Ok e -> py_ge e (degree n) = Ok true -> integrates q s n.
Theorem C33_honest quads shapes q c : Forall wf_quad quads -> tp_quad quads = Ok q ->
  Forall2 (fun q s => sh_ok s /\ q_dim q = shape_dim s /\ honest q s) quads shapes ->
  honest q (TPShape c (sum_nat (map shape_dim shapes)) shapes).
Proof.
  intros W E H e n He Hn. apply (C33_exact quads shapes q c n W E).
  destruct (tp_quad_inv quads q W E) as (_ & _ & _ & X).
  assert (All : forall a, In a quads -> exists d, exact_to a = Ok d /\ py_ge d (degree n) = Ok true).
  { destruct quads as [|q0 quads]; [easy|]. unfold exact_to in He. destruct X as [(d & Em & Ex)|[_ Ex]]; rewrite Ex in He; [|discriminate].
    injection He as ->. intros a Ha. destruct (py_min_ge n _ _ Em Hn (exact_to a)) as (x & Hx & Gx); [now apply in_map|]. now exists x. }
  clear -H All. induction H as [|a b qs bs (H1 & H2 & H3) H IH]; constructor.
  - split; [easy|]. split; [easy|]. destruct (All a (or_introl eq_refl)) as (d & Hd & Hg). now apply (H3 d).
  - apply IH. intros x Hx. apply All. now right.
Qed.
(** The advertised degree itself: the least of the factors' degrees, unset as soon as
    a factor's is unset, infinite for no factors (degrees: finite numbers with either one
    of the two infinities in use, see C44_two_infinities_refuted). *)
Theorem C33_exact_to quads q : Forall wf_quad quads -> tp_quad quads = Ok q ->
  (quads = [] -> exact_to q = Ok NInf)
  /\ (forall ds, quads <> [] -> Forall deg ds \/ Forall (fun d => d <> NInf /\ d <> NNpInf false) ds ->
        Forall2 (fun a d => exact_to a = Ok d) quads ds ->
        exists d, exact_to q = Ok d /\ In d ds /\ forall d', In d' ds -> py_le d d' = Ok true)
  /\ ((exists a, In a quads /\ exact_to a = Err AttributeError) -> exact_to q = Err AttributeError).
Proof.
  intros W E. destruct (tp_quad_inv quads q W E) as (_ & _ & _ & X). split; [|split].
  - intros ->. unfold exact_to. now rewrite X.
  - intros ds Hne HF HD.
    assert (EM : map exact_to quads = map Ok ds) by (clear -HD; induction HD as [|a d qs ds Ha HD IH]; [reflexivity|]; cbn [map]; now rewrite Ha, IH).
    assert (Hds : ds <> []) by (intros ->; inversion HD; subst; easy).
    assert (M : exists d, py_min (map Ok ds) = Ok d /\ In d ds /\ forall d', In d' ds -> py_le d d' = Ok true)
      by (destruct HF; [now apply C44_min|now apply C44_min_float]).
    destruct M as (d & M1 & M2). exists d. destruct quads as [|q0 quads]; [easy|]. rewrite EM, M1 in X. unfold exact_to.
    destruct X as [(d' & Ed & ->)|[Ed _]]; [|discriminate]. injection Ed as <-. now split.
  - intros (a & Ha & Ea). unfold exact_to. destruct quads as [|q0 quads]; [easy|].
    destruct X as [(d & Em & Ex)|[_ Ex]]; [|now rewrite Ex]. exfalso.
    assert (PM : forall items cur e, py_min_from cur items = Ok e -> ~ In (Err AttributeError) items).
    { induction items as [|it items IH]; intros cur e H; [easy|]. cbn [py_min_from] in H. destruct it as [x|]; [|discriminate]. cbn [bind] in H.
      destruct (py_lt x cur) as [b|]; [|discriminate]. cbn [bind] in H. intros [K|K]; [discriminate|]. eapply IH; eassumption. }
    cbn [map py_min] in Em. destruct (exact_to q0) as [x|] eqn:E0; [|discriminate]. cbn [bind] in Em.
    destruct Ha as [->|Ha]; [congruence|]. apply (PM _ _ _ Em). rewrite <- Ea. now apply in_map.
Qed.
(** Building the product succeeds for rules with finite degrees. *)
Theorem C33_defined quads : Forall wf_quad quads -> (forall a, In a quads -> (0 < q_dim a)%nat /\ exists r, exact_to a = Ok (NFin r)) ->
  exists q, tp_quad quads = Ok q.
Proof.
  intros W H. unfold tp_quad.
  destruct (ProofTPNodes.tensor_product_pts_ok (map quad_points quads)) as (x & Ex & Dx & C1 & C0 & _).
  { apply Forall_map. eapply Forall_impl; [|exact W]. intros a. apply wf_quad_points. }
  destruct (tp_weights quads) as (ws & Ew & Hw). rewrite Ex. cbn [bind]. rewrite Ew. cbn [bind]. rewrite Hw.
  rewrite map_map in C1, C0. cbn [quad_points pts_dim] in C1, C0.
  assert (LL : length (pts_cols x) = prod_nat (map (fun q => length (q_weights q)) quads)).
  { assert (EL : map (fun q => length (q_weights q)) quads = map (fun q => length (q_nodes q)) quads).
    { apply map_ext_in. intros a Ha. rewrite Forall_forall in W. now destruct (W a Ha). }
    rewrite EL. destruct quads as [|q0 quads]; [now rewrite C0|]. rewrite C1.
    - rewrite tp_tuples_length. f_equal. rewrite !map_map. reflexivity.
    - destruct (H q0 (or_introl eq_refl)) as [Hd _]. unfold sum_nat. cbn [map fold_right]. lia. }
  rewrite map_length, enumF_length, LL, Nat.eqb_refl. cbn [negb].
  assert (MM : forall items cur, (forall it, In it items -> exists r, it = Ok (NFin r)) -> exists r, py_min_from (NFin cur) items = Ok (NFin r)).
  { induction items as [|it items IH]; intros cur Hi; cbn [py_min_from]; [now exists cur|]. destruct (Hi it (or_introl eq_refl)) as (r & ->).
    cbn [bind]. change (py_lt (NFin r) (NFin cur)) with (Ok (Qlt_bool r cur)). cbn [bind].
    destruct (Qlt_bool r cur); apply IH; intros; apply Hi; now right. }
  destruct quads as [|q0 quads]; [eexists; reflexivity|]. cbn [map py_min]. destruct (H q0 (or_introl eq_refl)) as [_ (r0 & ->)]. cbn [bind].
  destruct (MM (map exact_to quads) r0) as (r & ->).
  - intros it Hi. apply in_map_iff in Hi. destruct Hi as (a & <- & Ha). apply H. now right.
  - cbn [bind]. eexists; reflexivity.
Qed.
(** Rules for the interval and the triangle: their product is a rule on the prism. *)
Example C33_example : exists qa qb q, gm_quad 1 1 = Ok qa /\ gm_quad 2 2 = Ok qb /\ tp_quad [qa; qb] = Ok q
  /\ Forall wf_quad [qa; qb] /\ Forall2 (fun q s => sh_ok s /\ q_dim q = shape_dim s /\ honest q s) [qa; qb] [Simplex 1; Simplex 2].
Proof.
  assert (HG : forall s d, (0 < d)%nat -> exists q, gm_quad s d = Ok q /\ wf_quad q /\ q_dim q = d /\ honest q (Simplex d)
     /\ exists r, exact_to q = Ok (NFin r)).
  { intros s d Hd. destruct (gm_quad_pos s d Hd) as (dict & Ed & G & E). eexists. split; [exact E|].
    destruct (C35_nodes s d _ E) as [L N]. split; [split; [apply Forall_forall; intros x Hx; now destruct (N x Hx)|easy]|].
    split; [reflexivity|]. split; [|eexists; reflexivity].
    intros e n He Hn phi Hp. cbn [exact_to q_exact] in He. injection He as <-.
    destruct (C35_exact s d _ phi (fun x => Ok (phi x)) E) as (v & Hv & Hq); [|reflexivity|now exists v].
    eapply is_poly_weaken; [|exact Hp]. unfold degree in Hn. rewrite py_ge_fin in Hn. injection Hn as Hn. apply Qle_bool_iff in Hn.
    unfold inject_Z, Qle in Hn. cbn in Hn. cbn [shape_dim]. lia. }
  destruct (HG 1%nat 1%nat ltac:(lia)) as (qa & E1 & W1 & D1 & H1 & R1). destruct (HG 2%nat 2%nat ltac:(lia)) as (qb & E2 & W2 & D2 & H2 & R2).
  destruct (C33_defined [qa; qb]) as (q & Eq).
  - constructor; [easy|]. constructor; [easy|constructor].
  - intros a [<-|[<-|[]]]; (split; [lia|easy]).
  - exists qa, qb, q. split; [easy|]. split; [easy|]. split; [easy|]. split; [constructor; [easy|]; constructor; [easy|constructor]|].
    constructor; [split; [constructor|now split]|]. constructor; [split; [constructor|now split]|constructor].
Qed.

Print Assumptions C32_exact.
Print Assumptions C32_exact_to.
Print Assumptions C32_empty.
Print Assumptions C32_defined.
Print Assumptions C32_nodes.
Print Assumptions C33_product.
Print Assumptions C33_exact.
Print Assumptions C33_honest.
Print Assumptions C33_exact_to.
Print Assumptions C33_defined.
Print Assumptions C44_trichotomy.
Print Assumptions C44_transitive.
Print Assumptions C44_antisymmetric.
Print Assumptions C44_top.
Print Assumptions C44_min.
Print Assumptions C44_min_float.
Print Assumptions C44_add.
Print Assumptions C44_two_infinities_refuted.
