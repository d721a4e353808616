(** * Transformed and tensor-product rules *)
From Coquelicot Require Import Coquelicot.
From Coq Require Import List Arith Bool ZArith QArith Reals Lra Lia Permutation.
From Verif Require Import Py PyToolsModel ModelNd ModelShapes ModelSpaces ModelNodes ModelModes ModelQuad.
From Verif Require Import RSum EnumFacts IntFacts SpecIndex SpecGeometry SpecPoly SpecIntegral ProofNodeTuples ProofTPNodes
  ProofDirichlet ProofCompositions ProofGM.
Import ListNotations.
Local Open Scope R_scope.

(** ** Degrees *)
Definition ge_deg (e : pynum) (n : nat) : Prop := py_ge e (degree n) = Ok true.
Lemma Qle_bool_total a b : Qle_bool a b = false -> Qle_bool b a = true.
Proof.
  intros H. apply Qle_bool_iff. destruct (Qlt_le_dec b a) as [L|L]; [now apply Qlt_le_weak|].
  apply Qle_bool_iff in L. congruence.
Qed.
Lemma Qle_bool_trans a b c : Qle_bool a b = true -> Qle_bool b c = true -> Qle_bool a c = true.
Proof. rewrite !Qle_bool_iff. apply Qle_trans. Qed.
Lemma num_le_fin a b : num_le (NFin a) (NFin b) = Some (Qle_bool a b).
Proof.
  unfold num_le, num_lt, num_eq, Qlt_bool. f_equal. destruct (Qle_bool a b) eqn:E.
  - destruct (Qle_bool b a) eqn:E'; [|reflexivity]. cbn [negb orb]. apply Qeq_bool_iff. apply Qle_bool_iff in E, E'. now apply Qle_antisym.
  - pose proof (Qle_bool_total _ _ E) as T. rewrite T. cbn [negb orb]. destruct (Qeq_bool a b) eqn:Q; [|reflexivity].
    apply Qeq_bool_iff in Q. assert (H : (a <= b)%Q) by (rewrite Q; apply Qle_refl). apply Qle_bool_iff in H. congruence.
Qed.
Lemma py_ge_fin a b : py_ge (NFin a) (NFin b) = Ok (Qle_bool b a).
Proof. unfold py_ge. rewrite num_le_fin. reflexivity. Qed.
Lemma ge_deg_step n x cur b : py_lt x cur = Ok b -> (ge_deg (if b then x else cur) n -> ge_deg x n /\ ge_deg cur n).
Proof.
  unfold ge_deg, degree. intros E H. destruct x as [x|p|], cur as [c|p'|].
  - cbn in E. unfold refl, Qlt_bool in E. injection E as <-. rewrite !py_ge_fin in *.
    destruct (Qle_bool c x) eqn:Ex; cbn [negb] in H; rewrite py_ge_fin in H; injection H as H; split; f_equal; try easy.
    + now apply (Qle_bool_trans _ c).
    + apply (Qle_bool_trans _ x); [easy|]. now apply Qle_bool_total.
  - destruct p'; cbn in E; injection E as <-; [split; [easy|reflexivity]|discriminate H].
  - cbn in E. injection E as <-. split; [easy|reflexivity].
  - destruct p; cbn in E; injection E as <-; split; try easy; try reflexivity; try discriminate H.
  - destruct p, p'; cbn in E; injection E as <-; split; try easy; try reflexivity; try discriminate H.
  - destruct p; discriminate E.
  - cbn in E. injection E as <-. split; [reflexivity|easy].
  - destruct p'; cbn in E; discriminate E.
  - split; reflexivity.
Qed.
Lemma py_min_from_ge n : forall items cur e, py_min_from cur items = Ok e -> ge_deg e n ->
  ge_deg cur n /\ forall it, In it items -> exists x, it = Ok x /\ ge_deg x n.
Proof.
  induction items as [|it items IH]; intros cur e E H; cbn [py_min_from] in E.
  - injection E as <-. split; [easy|]. intros it [].
  - destruct it as [x|err]; [|discriminate]. cbn [bind] in E. destruct (py_lt x cur) as [b|] eqn:Eb; [|discriminate]. cbn [bind] in E.
    destruct (IH _ _ E H) as [H1 H2]. destruct (ge_deg_step n x cur b Eb H1) as [Hx Hc]. split; [easy|].
    intros it [<-|Hi]; [now exists x|now apply H2].
Qed.
Lemma py_min_ge n items e : py_min items = Ok e -> ge_deg e n -> forall it, In it items -> exists x, it = Ok x /\ ge_deg x n.
Proof.
  destruct items as [|it items]; [discriminate|]. cbn [py_min]. destruct it as [x|]; [|discriminate]. cbn [bind]. intros E H it [<-|Hi].
  - exists x. split; [reflexivity|]. now apply (py_min_from_ge n items x e).
  - now apply (py_min_from_ge n items x e).
Qed.

(** ** Product rules *)
Definition wf_quad (q : quad) : Prop :=
  Forall (fun x => length x = q_dim q) (q_nodes q) /\ length (q_weights q) = length (q_nodes q).
Definition rule (q : quad) (f : list R -> R) : R := dotR (q_weights q) (map f (q_nodes q)).
Lemma q_call_rule q f phi : wf_quad q -> (forall x, In x (q_nodes q) -> f x = Ok (phi x)) -> q_call q f = Ok (rule q phi).
Proof.
  intros [_ L] H. unfold q_call. rewrite (mapM_Ok f phi) by exact H. cbn [bind]. now rewrite map_length, L, Nat.eqb_refl.
Qed.
Lemma dotR_rsum : forall w v, length w = length v -> dotR w v = rsum (fun k => nth k w 0 * nth k v 0) (length w).
Proof.
  unfold dotR. induction w as [|a w IH]; intros [|b v] H; try discriminate; [reflexivity|].
  cbn [combine map fold_right length fst snd]. rewrite rsum_shift. cbn [nth]. rewrite IH by (cbn in H; lia). reflexivity.
Qed.
Lemma rule_rsum q f : wf_quad q ->
  rule q f = rsum (fun k => nth k (q_weights q) 0 * f (nth k (q_nodes q) [])) (length (q_nodes q)).
Proof.
  intros [_ L]. unfold rule. rewrite dotR_rsum by (now rewrite map_length). rewrite L. apply rsum_ext. intros k Hk.
  rewrite (nth_indep (map f (q_nodes q)) 0 (f [])) by (now rewrite map_length). now rewrite map_nth.
Qed.

Lemma lsum_seq (f : nat -> R) n : lsum f (seq 0 n) = rsum f n.
Proof.
  assert (H : forall st, lsum f (seq st n) = rsum (fun k => f (st + k)%nat) n).
  { induction n as [|n IH]; intros st; [reflexivity|]. cbn [seq]. rewrite lsum_cons, IH, rsum_shift, Nat.add_0_r. f_equal.
    apply rsum_ext. intros k _. f_equal. lia. }
  apply H.
Qed.
Lemma enumF_cons_perm n ns : Permutation (enumF (n :: ns)) (flat_map (fun i => map (cons i) (enumF ns)) (seq 0 n)).
Proof.
  apply NoDup_Permutation.
  - apply enumF_NoDup.
  - apply NoDup_flat_map; [apply seq_NoDup| |].
    + intros i _. apply FinFun.Injective_map_NoDup; [|apply enumF_NoDup]. intros u v E. now injection E.
    + intros i j x _ _ H1 H2. apply in_map_iff in H1. apply in_map_iff in H2. destruct H1 as (r & <- & _), H2 as (r' & E & _). now injection E.
  - intros t. rewrite enumF_in, in_flat_map. split.
    + intros H. inversion H as [|i ? r ? Hi Hr]; subst. exists i. split; [apply in_seq; lia|]. apply in_map. now apply enumF_in.
    + intros (i & Hi & Ht). apply in_seq in Hi. apply in_map_iff in Ht. destruct Ht as (r & <- & Hr). apply enumF_in in Hr.
      constructor; [lia|easy].
Qed.
(** Sum over multi-indices of a product. *)
Lemma lsum_enumF_prod (g : list (nat -> R)) : forall ns, length g = length ns ->
  lsum (fun idx => fold_right Rmult 1 (map (fun p => fst p (snd p)) (combine g idx))) (enumF ns)
  = fold_right Rmult 1 (map (fun p => rsum (fst p) (snd p)) (combine g ns)).
Proof.
  induction g as [|h g IH]; intros [|n ns] L; try discriminate.
  - unfold lsum, enumF, prod_nat, list_sum. cbn. ring.
  - rewrite (lsum_perm _ _ _ (enumF_cons_perm n ns)). rewrite lsum_flat_seq. cbn [combine map fold_right fst snd].
    rewrite <- IH by (cbn in L; lia). rewrite <- rsum_scal_r. apply rsum_ext. intros k _. rewrite Nat.add_0_l, lsum_map.
    cbn [combine map fold_right fst snd]. now rewrite lsum_scal.
Qed.
Definition pick {A} (d : A) (ls : list (list A)) (idx : list nat) : list A := map (fun p => nth (snd p) (fst p) d) (combine ls idx).
Lemma tp_tuples_pick {A} (tss : list (list (list A))) :
  tp_tuples tss = map (fun idx => concat (pick [] tss idx)) (enumF (map (@length _) tss)).
Proof.
  unfold tp_tuples. apply map_ext_in. intros idx H. apply enumF_in in H. f_equal.
  assert (Z : zipM (fun ts j => getitem ts j) tss idx = Ok (pick [] tss idx)); [|now rewrite Z].
  revert idx H. induction tss as [|ts tss IH]; intros idx H; inversion H as [|i n r ns Hi Hr]; subst; [reflexivity|].
  cbn [zipM]. unfold getitem at 1. rewrite (nth_error_nth' ts [] Hi). cbn [bind]. rewrite IH by easy. reflexivity.
Qed.

(** What TensorProductQuadrature builds. *)
Lemma wf_quad_points q : wf_quad q -> wf_pts (quad_points q).
Proof. intros [H _]. exact H. Qed.
Lemma wf_weight_points q : wf_pts (weight_points q).
Proof. unfold wf_pts, weight_points. cbn. apply Forall_map. apply Forall_forall. reflexivity. Qed.
Lemma sum_weight_dims quads : sum_nat (map pts_dim (map weight_points quads)) = length quads.
Proof. induction quads as [|q quads IH]; [reflexivity|]. unfold sum_nat in *. cbn [map fold_right length]. rewrite IH. cbn. lia. Qed.
Lemma fold_left_mult l : forall a, fold_left Rmult l a = a * fold_right Rmult 1 l.
Proof. induction l as [|x l IH]; intros a; cbn [fold_left fold_right]; [ring|]. rewrite IH. ring. Qed.
Lemma tp_weights quads : exists ws, tensor_product_pts (map weight_points quads) = Ok ws
  /\ map (fun c => fold_left Rmult c 1) (pts_cols ws)
     = map (fun idx => fold_right Rmult 1 (pick 0 (map q_weights quads) idx)) (enumF (map (fun q => length (q_weights q)) quads)).
Proof.
  destruct (tensor_product_pts_ok (map weight_points quads)) as (ws & E & _ & C1 & C0 & _).
  { apply Forall_map. apply Forall_forall. intros q _. apply wf_weight_points. }
  exists ws. split; [exact E|]. rewrite sum_weight_dims in *. destruct quads as [|q0 quads'].
  - rewrite (C0 eq_refl). cbn. unfold enumF, prod_nat, pick. cbn. reflexivity.
  - rewrite C1 by discriminate. set (quads := q0 :: quads') in *. rewrite tp_tuples_pick, map_map.
    assert (EL : map (@length (list R)) (map pts_cols (map weight_points quads)) = map (fun q => length (q_weights q)) quads).
    { rewrite !map_map. apply map_ext. intros q. cbn. apply map_length. }
    rewrite EL. apply map_ext_in. intros idx H. apply enumF_in in H. rewrite fold_left_mult, Rmult_1_l. f_equal.
    clear E C1 C0 EL. revert idx H. induction quads as [|q quads IH]; intros idx H; inversion H as [|i n r ns Hi Hr]; subst; [reflexivity|].
    unfold pick in *. cbn [map combine fst snd concat]. rewrite IH by easy.
    cbn [weight_points pts_cols]. rewrite (nth_indep _ [] ((fun w => [w]) 0)) by (now rewrite map_length).
    rewrite (map_nth (fun w => [w])). reflexivity.
Qed.
Lemma tp_quad_inv quads q : Forall wf_quad quads -> tp_quad quads = Ok q ->
  q_dim q = sum_nat (map q_dim quads)
  /\ q_nodes q = map (fun idx => concat (pick [] (map q_nodes quads) idx)) (enumF (map (fun q => length (q_nodes q)) quads))
  /\ q_weights q = map (fun idx => fold_right Rmult 1 (pick 0 (map q_weights quads) idx)) (enumF (map (fun q => length (q_nodes q)) quads))
  /\ match quads with
     | [] => q_exact q = Some NInf
     | _ => (exists d, py_min (map exact_to quads) = Ok d /\ q_exact q = Some d)
            \/ (py_min (map exact_to quads) = Err AttributeError /\ q_exact q = None)
     end.
Proof.
  intros W E. unfold tp_quad in E.
  destruct (tensor_product_pts_ok (map quad_points quads)) as (x & Ex & Dx & C1 & C0 & _).
  { apply Forall_map. eapply Forall_impl; [|exact W]. intros a. apply wf_quad_points. }
  destruct (tp_weights quads) as (ws & Ew & Hw).
  rewrite Ex in E. cbn [bind] in E. rewrite Ew in E. cbn [bind] in E. rewrite Hw in E.
  assert (EL : map (fun q => length (q_weights q)) quads = map (fun q => length (q_nodes q)) quads).
  { apply map_ext_in. intros a Ha. rewrite Forall_forall in W. now destruct (W a Ha). }
  rewrite EL in E. rewrite map_length, enumF_length in E.
  rewrite map_map in Dx, C1, C0. cbn [quad_points pts_dim] in Dx, C1, C0.
  assert (EC : map pts_cols (map quad_points quads) = map q_nodes quads) by (rewrite map_map; reflexivity).
  rewrite EC in C1.
  assert (EN : map (@length (list R)) (map q_nodes quads) = map (fun q => length (q_nodes q)) quads) by (now rewrite map_map).
  destruct (prod_nat (map (fun q0 => length (q_nodes q0)) quads) =? length (pts_cols x))%nat eqn:El; cbn [negb] in E; [|discriminate].
  apply Nat.eqb_eq in El.
  assert (HC : pts_cols x = map (fun idx => concat (pick [] (map q_nodes quads) idx)) (enumF (map (fun q => length (q_nodes q)) quads))).
  { destruct (Nat.eq_dec (sum_nat (map q_dim quads)) 0) as [Z|Z].
    - rewrite (C0 Z). rewrite (C0 Z) in El. cbn [length] in El.
      assert (L1 : length (enumF (map (fun q0 => length (q_nodes q0)) quads)) = 1%nat) by (now rewrite enumF_length).
      destruct (enumF _) as [|idx [|]] eqn:EE; try discriminate. cbn [map]. f_equal.
      assert (HI : valid_idx idx (map (fun q0 => length (q_nodes q0)) quads)) by (apply enumF_in; rewrite EE; now left).
      clear -W Z HI. revert idx HI. induction quads as [|q quads IH]; intros idx HI; inversion HI as [|i n r ns Hi Hr]; subst; [reflexivity|].
      inversion W as [|? ? [Wq _] W']; subst. unfold sum_nat in Z. cbn [map fold_right] in Z. unfold pick in *. cbn [map combine fst snd concat].
      rewrite <- IH; [|easy|unfold sum_nat; lia|easy]. rewrite app_nil_r.
      assert (HL : length (nth i (q_nodes q) []) = 0%nat).
      { rewrite Forall_forall in Wq. rewrite (Wq (nth i (q_nodes q) [])); [lia|]. now apply nth_In. }
      destruct (nth i (q_nodes q) []); [reflexivity|discriminate].
    - rewrite (C1 Z), tp_tuples_pick, EN. reflexivity. }
  destruct quads as [|q0 quads'].
  - cbn [bind] in E. injection E as <-. cbn [q_dim q_nodes q_weights q_exact]. repeat split; try easy.
  - destruct (py_min (map exact_to (q0 :: quads'))) as [d|err] eqn:Em; cbn [bind] in E.
    + injection E as <-. cbn [q_dim q_nodes q_weights q_exact]. repeat split; try easy. left. now exists d.
    + destruct err; cbn [bind] in E; try discriminate. injection E as <-. cbn [q_dim q_nodes q_weights q_exact]. repeat split; try easy. right. now split.
Qed.
Lemma tp_quad_wf quads q : Forall wf_quad quads -> tp_quad quads = Ok q -> wf_quad q.
Proof.
  intros W E. destruct (tp_quad_inv quads q W E) as (D & N & Ws & _). split; [|rewrite N, Ws; now rewrite !map_length].
  rewrite N, D. apply Forall_map. apply Forall_forall. intros idx H. apply enumF_in in H. clear E D N Ws.
  revert idx H. induction quads as [|a quads IH]; intros idx H; inversion H as [|i n r ns Hi Hr]; subst; [reflexivity|].
  inversion W as [|? ? [Wq _] W']; subst. unfold pick, sum_nat in *. cbn [map combine fst snd concat fold_right]. rewrite app_length, IH by easy.
  rewrite Forall_forall in Wq. rewrite Wq; [reflexivity|now apply nth_In].
Qed.
(** Product functions *)
Fixpoint prod_app (fs : list (list R -> R)) (xs : list (list R)) : R :=
  match fs, xs with f :: fs', x :: xs' => f x * prod_app fs' xs' | _, _ => 1 end.
Lemma tp_rule_prod quads q fs F : Forall wf_quad quads -> tp_quad quads = Ok q -> length fs = length quads ->
  (forall xs, Forall2 (fun x q => In x (q_nodes q)) xs quads -> F (concat xs) = prod_app fs xs) ->
  rule q F = fold_right Rmult 1 (map (fun p => rule (fst p) (snd p)) (combine quads fs)).
Proof.
  intros W E L HF. destruct (tp_quad_inv quads q W E) as (_ & N & Ws & _). unfold rule at 1. rewrite N, Ws, map_map, dotR_map. clear E N Ws q.
  transitivity (lsum (fun idx => fold_right Rmult 1 (map (fun p => fst p (snd p))
     (combine (map (fun p k => nth k (q_weights (fst p)) 0 * snd p (nth k (q_nodes (fst p)) [])) (combine quads fs)) idx)))
       (enumF (map (fun q => length (q_nodes q)) quads))).
  - apply lsum_ext. intros idx H. apply enumF_in in H. rewrite HF.
    + clear HF. revert fs idx L H. induction quads as [|a quads IH]; intros [|f fs] idx L H; try discriminate; inversion H as [|i n r ns Hi Hr]; subst.
      * cbn. ring.
      * inversion W as [|? ? Wa W']; subst. unfold pick in *. cbn [map combine fst snd fold_right prod_app]. rewrite <- IH by (try easy; cbn in L; lia). ring.
    + clear -H. revert idx H. induction quads as [|a quads IH]; intros idx H; inversion H as [|i n r ns Hi Hr]; subst; [constructor|].
      unfold pick in *. cbn [map combine fst snd]. constructor; [now apply nth_In|now apply IH].
  - rewrite lsum_enumF_prod by (rewrite !map_length, combine_length; lia). clear HF.
    revert fs L. induction quads as [|a quads IH]; intros [|f fs] L; try discriminate; [reflexivity|].
    inversion W as [|? ? Wa W']; subst. cbn [map combine fold_right fst snd]. rewrite IH by (try easy; cbn in L; lia). now rewrite (rule_rsum a f Wa).
Qed.
Lemma rule_ext q f g : (forall x, In x (q_nodes q) -> f x = g x) -> rule q f = rule q g.
Proof. intros H. unfold rule. f_equal. now apply map_ext_in. Qed.
Lemma rule_plus q f g : wf_quad q -> rule q (fun x => f x + g x) = rule q f + rule q g.
Proof. intros W. rewrite !rule_rsum by easy. rewrite <- rsum_plus. apply rsum_ext. intros k _. ring. Qed.
Lemma rule_scal q c f : wf_quad q -> rule q (fun x => c * f x) = c * rule q f.
Proof. intros W. rewrite !rule_rsum by easy. rewrite <- rsum_scal. apply rsum_ext. intros k _. ring. Qed.

Definition exact_on (s : shape) (q : quad) (n : nat) : Prop :=
  forall phi, is_poly (shape_dim s) n phi -> is_int s phi (rule q phi).
Lemma exact_on_monomials s q n : wf_quad q -> q_dim q = shape_dim s ->
  (forall x, in_shape s x -> length x = shape_dim s) ->
  (forall e, length e = shape_dim s -> (total e <= n)%nat -> is_int s (monoval e) (rule q (monoval e))) ->
  exact_on s q n.
Proof.
  intros W Dq HS H phi (ts & Fts & Hts).
  enough (HI : is_int s (polyval ts) (rule q (polyval ts))).
  { rewrite (rule_ext q phi (polyval ts)).
    - eapply is_int_ext; [|exact HI]. intros x Hx. symmetry. apply Hts. now apply HS.
    - intros x Hx. apply Hts. rewrite <- Dq. destruct W as [W _]. rewrite Forall_forall in W. now apply W. }
  clear Hts phi. induction Fts as [|(c, e) ts [Le Te] Fts IH].
  - assert (H0 : is_int s (fun x => 0 * monoval (repeat 0%nat (shape_dim s)) x) (0 * rule q (monoval (repeat 0%nat (shape_dim s))))).
    { apply is_int_scal, H; [apply repeat_length|]. unfold total. rewrite sum_repeat0. lia. }
    rewrite <- rule_scal in H0 by easy. rewrite (rule_ext q (polyval []) (fun x => 0 * monoval (repeat 0%nat (shape_dim s)) x)).
    + eapply is_int_ext; [|exact H0]. intros x _. unfold polyval; cbn [fold_right]. ring.
    + intros x _. unfold polyval; cbn [fold_right]. ring.
  - cbn [fst snd] in Le, Te. pose proof (is_int_plus s _ _ _ _ (is_int_scal s c _ _ (H e Le Te)) IH) as HP.
    rewrite <- rule_scal, <- rule_plus in HP by easy. exact HP.
Qed.
Lemma in_shapes_total_length bs x : Forall (fun b => forall y, in_shape b y -> length y = shape_dim b) bs ->
  in_shapes bs x -> length x = sum_nat (map shape_dim bs).
Proof.
  intros F. revert x. induction F as [|b bs Hb F IH]; intros x H; cbn [in_shapes] in H; [subst; reflexivity|].
  destruct H as (p & r & -> & Hp & Hr). unfold sum_nat in *. cbn [map fold_right]. rewrite app_length, (Hb p Hp), (IH r Hr). reflexivity.
Qed.
(** Splitting an exponent along the factors. *)
Lemma split_exp (ds : list nat) : forall e, length e = sum_nat ds ->
  exists es, e = concat es /\ Forall2 (fun e' d => length e' = d) es ds /\ Forall (fun e' => (total e' <= total e)%nat) es.
Proof.
  induction ds as [|d ds IH]; intros e L; unfold sum_nat in L; cbn [fold_right] in L.
  - exists []. destruct e; [|discriminate]. repeat split; constructor.
  - destruct (IH (skipn d e)) as (es & E & F1 & F2); [rewrite skipn_length; unfold sum_nat; lia|].
    exists (firstn d e :: es). cbn [concat]. rewrite <- E, firstn_skipn. split; [reflexivity|].
    assert (T : total e = (total (firstn d e) + total (skipn d e))%nat) by (now rewrite <- total_app, firstn_skipn).
    split; [constructor; [rewrite firstn_length; lia|easy]|]. constructor; [lia|]. eapply Forall_impl; [|exact F2]. cbv beta. intros; lia.
Qed.
Lemma monoval_concat es : forall xs, Forall2 (fun (e : list nat) (x : list R) => length e = length x) es xs ->
  monoval (concat es) (concat xs) = prod_app (map monoval es) xs.
Proof.
  induction es as [|e es IH]; intros xs H; inversion H as [|? x ? xs' Hl Hr]; subst; [reflexivity|].
  cbn [concat map prod_app]. rewrite monoval_app by easy. now rewrite IH.
Qed.
Lemma tp_exact_on quads bs q c nm n : Forall wf_quad quads -> tp_quad quads = Ok q ->
  Forall2 (fun q s => exact_on s q n /\ q_dim q = shape_dim s /\ forall x, in_shape s x -> length x = shape_dim s) quads bs ->
  shape_dim (TPShape c nm bs) = sum_nat (map shape_dim bs) ->
  exact_on (TPShape c nm bs) q n.
Proof.
  intros W E H HD. pose proof (tp_quad_wf quads q W E) as Wq. destruct (tp_quad_inv quads q W E) as (Dq & _).
  assert (DD : sum_nat (map q_dim quads) = sum_nat (map shape_dim bs)).
  { clear -H. induction H as [|a b qs bs (_ & H2 & _) H IH]; [reflexivity|]. unfold sum_nat in *. cbn [map fold_right]. lia. }
  assert (HB : Forall (fun b => forall y, in_shape b y -> length y = shape_dim b) bs).
  { clear -H. induction H as [|a b qs bs (_ & _ & H3) H IH]; constructor; easy. }
  apply exact_on_monomials; [easy|congruence| |].
  - intros x Hx. rewrite HD. apply in_shape_TP in Hx. now apply in_shapes_total_length.
  - intros e Le Te. rewrite HD in Le. destruct (split_exp _ e Le) as (es & -> & F1 & F2).
    rewrite (tp_rule_prod quads q (map monoval es) (monoval (concat es)) W E).
    + apply is_int_TP. clear E Wq Dq DD HD Le q.
      revert es F1 F2 Te. induction H as [|a b qs bs' (H1 & H2 & H3) H IH]; intros es F1 F2 Te; inversion F1 as [|e1 ? es' ? L1 F1']; subst.
      * reflexivity.
      * inversion F2 as [|? ? T1 F2']; subst. inversion W as [|? ? Wa W']; subst. inversion HB as [|? ? Hb HB']; subst.
        assert (TT : total (concat (e1 :: es')) = (total e1 + total (concat es'))%nat) by (cbn [concat]; apply total_app).
        cbn [map combine fold_right fst snd]. apply is_ints_cons with (f := monoval e1) (g := monoval (concat es')).
        -- apply H1. exists [(1, e1)]. split; [constructor; [cbn; split; [easy|unfold total in *; lia]|constructor]|].
           intros x _. unfold polyval. cbn [fold_right fst snd]. ring.
        -- apply IH; [easy|easy|easy| |lia].
           clear -F1'. apply Forall_forall. intros e' Hin. induction es' as [|e2 es IH]; [easy|].
           cbn [concat]. rewrite total_app. destruct Hin as [->|Hin]; [lia|]. 
           assert (X : (total e' <= total (concat es))%nat); [|lia]. clear -Hin. induction es as [|e2 es IH]; [easy|].
           cbn [concat]. rewrite total_app. destruct Hin as [->|Hin]; [lia|]. specialize (IH Hin). lia.
        -- intros p r Hp Hr. cbn [concat]. apply monoval_app. rewrite (H3 p Hp). congruence.
    + rewrite map_length. rewrite (Forall2_length _ _ _ F1), map_length. symmetry. now apply (Forall2_length _ _ _ H).
    + intros xs Hxs. apply monoval_concat. clear -W H F1 Hxs. revert es xs F1 Hxs.
      induction H as [|a b qs bs' (H1 & H2 & H3) H IH]; intros es xs F1 Hxs; inversion F1 as [|e1 ? es' ? L1 F1']; subst; inversion Hxs as [|x ? xs' ? Hx Hxs']; subst; [constructor|].
      inversion W as [|? ? [Wa _] W']; subst. constructor; [|now apply IH]. rewrite Forall_forall in Wa. rewrite (Wa x Hx). congruence.
Qed.
