(** * Edge-clustered and Gauss tensor product node sets *)
From Coq Require Import List Arith Bool ZArith Reals Lra Lia.
From Verif Require Import Py RSum PyToolsModel ModelNd ModelShapes ModelSpaces ModelNodes ModelModes ModelBasis ModelQuad ModelGauss ModelMatrices ModelTools ModelWarpBlend ModelEdgeNodes.
From Verif Require Import SpecGeometry SpecIndex SpecPoly EnumFacts ProofNodeTuples ProofTPNodes ProofSpaces ProofBasisIndex ProofEquispaced ProofQuad ProofPoly1 ProofPKDO ProofTPOrtho ProofGauss3 ProofWarpBlend ProofWarpBlend2 ProofWarpBlend3 PropsGauss PropsLobatto PropsTools PropsWarpBlend
  ProofUnisolvent ProofDivide ProofEdgeNodes ProofEdgeNodes2 ProofEdgeNodes3.
From Verif Require ModelFaces ModelGM.
Import ListNotations.

(** ** [tensor_product_nodes(dims, nodes_1d)] *)
Lemma repeat_nth_error {A} (x : A) n r : r < n -> nth_error (repeat x n) r = Some x.
Proof. revert r. induction n; intros [|r] H; cbn; try lia; auto. apply IHn. lia. Qed.
Lemma sum_repeat1 n r : r <= n -> sum_nat (firstn r (repeat 1 n)) = r.
Proof.
  revert r. induction n as [|n IH]; intros [|r] H; cbn; try lia. specialize (IH r ltac:(lia)). unfold sum_nat in *. cbn. lia.
Qed.
Lemma sum_ones n : sum_nat (repeat 1 n) = n.
Proof. transitivity (sum_nat (firstn n (repeat 1 n))); [|now apply sum_repeat1]. rewrite firstn_all2; [reflexivity|rewrite repeat_length; lia]. Qed.
Lemma valid_repeat m n : forall r dg j, valid_idx dg (repeat m n) -> nth_error dg r = Some j -> j < m.
Proof.
  induction n as [|n IH]; intros r dg j Hv Ej; inversion Hv; subst; destruct r; cbn in *; try discriminate; [congruence|eapply IH; eauto].
Qed.
Lemma int_row {A} (junk : list nat -> A) dims n1 row size : np_reshapeC n1 [1; prod_nat (nd_shape n1)] = Ok row -> nd_shape row = [1; size] -> 0 < dims ->
  exists a, tensor_product_nodes junk (inl dims) (Some n1) = Ok a /\ nd_shape a = [dims; prod_nat (repeat size dims)]
    /\ forall r digits j, r < dims -> valid_idx digits (repeat size dims) -> nth_error digits r = Some j ->
         nd_at a [r; ravelF (repeat size dims) digits] = nd_at row [0; j].
Proof.
  intros ER HR Hd. unfold tensor_product_nodes. rewrite ER. cbn [bind].
  assert (F : Forall2 has_dims (repeat row dims) (repeat (1, size) dims)) by (clear -HR; induction dims; cbn; constructor; auto).
  assert (Ef : map fst (repeat (1, size) dims) = repeat 1 dims) by (clear; induction dims; cbn; congruence).
  assert (Es : map snd (repeat (1, size) dims) = repeat size dims) by (clear; induction dims; cbn; congruence).
  assert (E1 : sum_nat (repeat 1 dims) = dims) by apply sum_ones.
  destruct (tpn_core_ok junk _ _ F) as (a & Ea & Sa & Va); [rewrite Ef; lia|]. rewrite Ef, E1 in Ea. rewrite Ef, E1, Es in Sa. rewrite Es in Va.
  exists a. split; [exact Ea|]. split; [exact Sa|]. intros r digits j Hr Hl Hj.
  pose proof (Va r row 1 size 0 digits j (repeat_nth_error _ _ _ Hr) (repeat_nth_error _ _ _ Hr) ltac:(lia) Hl Hj) as V.
  rewrite <- firstn_map, Ef, sum_repeat1 in V by lia. now rewrite Nat.add_0_r in V.
Qed.
Local Open Scope R_scope.
Lemma int_cols n1 xs row dims : np_reshapeC n1 [1%nat; prod_nat (nd_shape n1)] = Ok row -> nd_shape row = [1%nat; length xs] ->
  (forall j, (j < length xs)%nat -> nd_at row [0%nat; j] = nth j xs 0) -> xs <> [] ->
  exists a, tensor_product_nodes (fun _ => 0) (inl dims) (Some n1) = Ok a
    /\ pts_of_nd a = mkPts dims (tp_tuples (repeat (map (fun x => [x]) xs) dims)).
Proof.
  intros ER HR HV Hne. destruct dims as [|dims'].
  { unfold tensor_product_nodes. rewrite ER. cbn [bind repeat]. destruct (tpn_core_zero (fun _ => 0) [] [] ltac:(constructor) eq_refl) as (a & Ea & Sa). exists a. split; [exact Ea|].
    unfold pts_of_nd, nd_columns. rewrite Sa. reflexivity. }
  set (dims := S dims') in *. assert (Hd : (0 < dims)%nat) by (unfold dims; lia). clearbody dims. clear dims'.
  destruct (int_row (fun _ => 0) dims n1 row _ ER HR Hd) as (a & Ea & Sa & Va). exists a. split; [exact Ea|].
  set (P := mkPts 1 (map (fun x => [x]) xs)).
  assert (W : Forall wf_pts (repeat P dims)).
  { apply Forall_forall. intros p Hp. apply repeat_spec in Hp. subst p. unfold wf_pts, P. cbn [pts_dim pts_cols]. apply Forall_forall. intros x Hx. apply in_map_iff in Hx. destruct Hx as (y & <- & _). reflexivity. }
  assert (D1 : map pts_dim (repeat P dims) = repeat 1%nat dims) by (clear; induction dims; cbn; congruence).
  assert (C1 : map pts_cols (repeat P dims) = repeat (map (fun x => [x]) xs) dims) by (clear; induction dims; cbn; congruence).
  assert (E1 : sum_nat (repeat 1%nat dims) = dims) by apply sum_ones.
  destruct (tensor_product_pts_ok (repeat P dims) W) as (p & Ep & Dp & Cp & _). rewrite D1, E1 in Dp, Cp. rewrite C1 in Cp. specialize (Cp ltac:(lia)).
  set (dns := repeat (1%nat, length xs) dims).
  assert (Ef : map fst dns = repeat 1%nat dims) by (unfold dns; clear; induction dims; cbn; congruence).
  assert (Es : map snd dns = repeat (length xs) dims) by (unfold dns; clear; induction dims; cbn; congruence).
  assert (FD : Forall2 set_dims (map pts_to_nd (repeat P dims)) dns).
  { unfold dns. clear. induction dims; cbn [repeat map]; constructor; auto. left. unfold P, pts_to_nd, nd_of_columns. cbn [pts_dim pts_cols nd_shape fst snd]. now rewrite map_length. }
  destruct (c03_proof (fun _ => 0) _ _ FD) as (a' & Ea' & S1 & _ & V'). change total with sum_nat in *. change product_of with prod_nat in *. rewrite Ef, E1, Es in S1. specialize (S1 ltac:(lia)).
  unfold tensor_product_pts in Ep. rewrite Ea' in Ep. cbn [bind] in Ep. assert (p = pts_of_nd a') by congruence. subst p. clear Ep.
  rewrite <- Cp, <- Dp at 1. unfold pts_of_nd, nd_columns. rewrite Sa, S1. cbn [pts_dim pts_cols hd]. apply f_equal. apply map_ext_in. intros k Hk. apply in_seq in Hk. apply map_ext_in. intros r Hr. apply in_seq in Hr.
  pose proof (unravelF_valid (repeat (length xs) dims) k ltac:(lia)) as Hv. rewrite <- (ravelF_unravelF (repeat (length xs) dims) k ltac:(lia)).
  set (dg := unravelF (repeat (length xs) dims) k) in *. assert (Ld : length dg = dims) by (rewrite (valid_idx_length _ _ Hv); apply repeat_length).
  clearbody dg. destruct (nth_error dg r) as [j|] eqn:Ej; [|apply nth_error_None in Ej; lia].
  assert (Hj : (j < length xs)%nat).
  { exact (valid_repeat _ _ _ _ _ Hv Ej). }
  rewrite (Va r dg j ltac:(lia) Hv Ej), HV by easy.
  assert (EN : nth_error (map pts_to_nd (repeat P dims)) r = Some (pts_to_nd P)) by (apply (map_nth_error pts_to_nd); apply repeat_nth_error; lia).
  assert (X := V' r (pts_to_nd P) 1%nat (length xs) 0%nat dg j EN (repeat_nth_error (1%nat, length xs) dims r ltac:(lia)) ltac:(lia)). rewrite Es in X. specialize (X Hv Ej).
  rewrite <- firstn_map, Ef, sum_repeat1, Nat.add_0_r in X by lia. rewrite mixed_radix_ravelF in X. rewrite X. unfold set_entry, pts_to_nd, nd_of_columns, P. cbn [pts_dim pts_cols nd_shape nd_at].
  rewrite (nth_indep _ [] [0]) by now rewrite map_length. rewrite (map_nth (fun x => [x])). reflexivity.
Qed.

(** ** One dimension *)
Lemma line_nodes n xs : length xs = S n -> NoDup xs -> nodes_of (PN 1 n) (map (fun x => [x]) xs).
Proof.
  intros L ND. constructor.
  - rewrite map_length, L. unfold space_dim. cbn [Nat.add]. rewrite ?(Nat.add_comm 1 n). rewrite comb_n1. lia.
  - intros x Hx. apply in_map_iff in Hx. destruct Hx as (y & <- & _). split; [reflexivity|exact I].
  - intros f Hf HZ x Hx. destruct x as [|u [|]]; try discriminate. apply (line_poly (fun k => nth k xs 0) n f).
    + intros i j Hi Hj E. apply (proj1 (NoDup_nth xs 0) ND); auto; lia.
    + exact Hf.
    + intros k Hk. apply HZ. apply in_map_iff. exists (nth k xs 0). split; [reflexivity|apply nth_In; lia].
Qed.
Lemma any_basis s : exists b, basis_of s b.
Proof.
  induction s as [d n|c ss IH] using fspace_ind'; [eexists; apply bo_mono|].
  assert (exists bs, Forall2 basis_of ss bs) as (bs & HB).
  { induction IH as [|s ss (b & Hb) _ (bs & HB)]; [exists []; constructor|exists (b :: bs); now constructor]. }
  eexists. apply bo_tp. exact HB.
Qed.
Lemma nodes_NoDup s xs : nodes_of s xs -> NoDup xs.
Proof.
  intros HN. destruct (any_basis s) as (b & Hb). destruct (uni_of s b xs Hb HN) as (fs & _ & _ & HU).
  apply (proj2 (NoDup_nth xs [])). intros i j Hi Hj E. destruct (Nat.eq_dec i j) as [|N]; [easy|exfalso].
  destruct (interpolant fs xs (fun k => if (k =? i)%nat then 1 else 0) HU) as (c & Hc). pose proof (Hc i Hi) as X. pose proof (Hc j Hj) as Y. cbv beta in X, Y.
  rewrite Nat.eqb_refl in X. destruct (Nat.eqb_spec j i); [congruence|]. unfold SpecSpan.pt in X, Y. rewrite E in X. rewrite X in Y. lra.
Qed.

(** ** Gauss and Gauss-Lobatto points *)
Lemma tp_line_nodes c dims n xs : length xs = S n -> NoDup xs ->
  nodes_of (TPSpace c (repeat (PN 1 n) dims)) (tp_tuples (repeat (map (fun x => [x]) xs) dims)).
Proof.
  intros L N. constructor. induction dims as [|dims IH]; cbn [repeat]; constructor; [|exact IH]. now apply line_nodes.
Qed.
Lemma row_of_cols xs : exists row, np_reshapeC (pts_to_nd (mkPts 1 (map (fun x => [x]) xs))) [1%nat; prod_nat (nd_shape (pts_to_nd (mkPts 1 (map (fun x => [x]) xs))))] = Ok row
  /\ nd_shape row = [1%nat; length xs] /\ forall j, (j < length xs)%nat -> nd_at row [0%nat; j] = nth j xs 0.
Proof.
  unfold pts_to_nd, nd_of_columns, np_reshapeC. cbn [nd_shape pts_dim pts_cols nd_at]. rewrite map_length.
  replace (prod_nat [1%nat; length xs]) with (length xs) by (unfold prod_nat; cbn; lia).
  replace (prod_nat [1%nat; length xs]) with (length xs) by (unfold prod_nat; cbn; lia). rewrite Nat.eqb_refl.
  eexists. split; [reflexivity|]. split; [reflexivity|]. intros j Hj. cbn [nd_at].
  rewrite unravelC_ravelC by (repeat constructor; easy). rewrite (nth_indep _ [] [0]) by now rewrite map_length. rewrite (map_nth (fun x => [x])). reflexivity.
Qed.
Lemma row_again {A} (row row' : ndarray A) m : nd_shape row = [1%nat; m] -> np_reshapeC row [1%nat; prod_nat (nd_shape row)] = Ok row' ->
  nd_shape row' = [1%nat; m] /\ forall j, (j < m)%nat -> nd_at row' [0%nat; j] = nd_at row [0%nat; j].
Proof.
  intros HS E. unfold np_reshapeC in E. rewrite HS in E. replace (prod_nat [1%nat; m]) with m in E by (unfold prod_nat; cbn; lia).
  replace (prod_nat [1%nat; m]) with m in E by (unfold prod_nat; cbn; lia). rewrite Nat.eqb_refl in E.
  match type of E with Ok ?x = _ => assert (row' = x) as -> by congruence end. split; [reflexivity|]. intros j Hj. cbn [nd_at]. f_equal. apply unravelC_ravelC. repeat constructor; easy.
Qed.
Lemma reshape_row {A} (row : ndarray A) m : nd_shape row = [1%nat; m] -> exists row', np_reshapeC row [1%nat; prod_nat (nd_shape row)] = Ok row'.
Proof.
  intros HS. unfold np_reshapeC. rewrite HS. replace (prod_nat [1%nat; prod_nat [1%nat; m]]) with (prod_nat [1%nat; m]) by (unfold prod_nat; cbn; lia). rewrite Nat.eqb_refl. eauto.
Qed.
Section Tensor.
  Context (eigh : eigh_t) (rj : roots_t).
  Lemma gauss_tensor dims n q xs : legendre_gauss eigh rj n None true = Ok q -> q_dim q = 1%nat -> q_nodes q = map (fun x => [x]) xs -> xs <> [] ->
    legendre_gauss_tensor_product_nodes eigh rj dims n = Ok (mkPts dims (tp_tuples (repeat (map (fun x => [x]) xs) dims))).
  Proof.
    intros E D Q Hne. unfold legendre_gauss_tensor_product_nodes. rewrite E. cbn [bind]. rewrite D, Q. unfold as_row.
    destruct (row_of_cols xs) as (row & ER & SR & VR). rewrite ER. cbn [bind].
    destruct (reshape_row row _ SR) as (row' & ER'). destruct (row_again row row' _ SR ER') as (SR' & VR').
    destruct (int_cols row xs row' dims ER' SR') as (a & Ea & Pa); [intros j Hj; rewrite VR', VR by easy; reflexivity|exact Hne|].
    rewrite Ea. cbn [bind]. now rewrite Pa.
  Qed.
  Lemma lobatto_tensor dims n xs flat : lgl_nodes eigh rj n None true = Ok (xs, flat) -> xs <> [] ->
    legendre_gauss_lobatto_tensor_product_nodes eigh rj dims n = Ok (mkPts dims (tp_tuples (repeat (map (fun x => [x]) xs) dims))).
  Proof.
    intros E Hne. unfold legendre_gauss_lobatto_tensor_product_nodes. rewrite E. cbn [bind]. unfold lgl_array. cbn [fst snd]. destruct flat.
    - assert (exists row, np_reshapeC (mkNd [length xs] (fun idx => match idx with [k] => nth k xs 0 | _ => 0 end)) [1%nat; prod_nat [length xs]] = Ok row
         /\ nd_shape row = [1%nat; length xs] /\ forall j, (j < length xs)%nat -> nd_at row [0%nat; j] = nth j xs 0) as (row & ER & SR & VR).
      { unfold np_reshapeC. cbn [nd_shape nd_at]. replace (prod_nat [1%nat; prod_nat [length xs]]) with (prod_nat [length xs]) by (unfold prod_nat; cbn; lia). rewrite Nat.eqb_refl.
        replace (prod_nat [length xs]) with (length xs) by (unfold prod_nat; cbn; lia).
        eexists. split; [reflexivity|]. split; [reflexivity|]. intros j Hj. cbn [nd_at].
        replace (ravelC [1%nat; length xs] [0%nat; j]) with (ravelC [length xs] [j]) by (unfold prod_nat; cbn; lia). rewrite unravelC_ravelC by (repeat constructor; easy). reflexivity. }
      destruct (int_cols (mkNd [length xs] (fun idx => match idx with [k] => nth k xs 0 | _ => 0 end)) xs row dims ER SR VR Hne) as (a & Ea & Pa). rewrite Ea. cbn [bind]. now rewrite Pa.
    - destruct (row_of_cols xs) as (row & ER & SR & VR). destruct (int_cols _ xs row dims ER SR VR Hne) as (a & Ea & Pa). rewrite Ea. cbn [bind]. now rewrite Pa.
  Qed.
End Tensor.

(** ** Edge-clustered nodes *)
Inductive edge_ok (eigh : eigh_t) : fspace -> Prop :=
| eo_pn d n : INR n < 2 * 10 ^ 10 -> ((2 <= d <= 3)%nat -> (n <= 4)%nat) -> ((1 <= d <= 3)%nat -> (1 <= n)%nat -> good_eigh eigh n) -> edge_ok eigh (PN d n)
| eo_tp c ss : Forall (edge_ok eigh) ss -> edge_ok eigh (TPSpace c ss).
Lemma alphas n : (n <= 4)%nat -> Rabs (alpha_2d n) <= 2 /\ Rabs (alpha_3d n) <= 2.
Proof.
  intros H. unfold alpha_2d, alpha_3d, alpha_opt_2d, alpha_opt_3d. destruct n as [|[|[|[|[|n]]]]]; try lia; cbn [Nat.sub nth_error]; split; rewrite Rabs_right; lra.
Qed.
Lemma edge_pn eigh rj d n : edge_ok eigh (PN d n) ->
  exists p, edge_clustered_nodes_for_space eigh rj (PN d n) (Simplex d) = Ok p /\ pts_dim p = d /\ nodes_of (PN d n) (pts_cols p).
Proof.
  intros H. inversion H as [? ? HO H4 HG|]; subst. cbn [edge_clustered_nodes_for_space]. rewrite Nat.eqb_refl. cbn [negb].
  assert (EQ : exists p, equispaced_nodes_for_space (PN d n) (Simplex d) = Ok p /\ pts_dim p = d /\ nodes_of (PN d n) (pts_cols p)).
  { destruct (equi_all (PN d n) (Simplex d) ltac:(constructor)) as (p & E & D & _). exists p. split; [easy|]. split; [exact D|]. now apply equi_nodes_pn. }
  destruct (Nat.leb_spec d 3) as [L|G].
  - destruct (Nat.eq_dec n 0) as [->|Hn].
    + unfold warp_and_blend_nodes. cbn [Nat.eqb]. destruct EQ as (p & E & D & N). rewrite equispaced_pn_eq in E. cbn [Nat.eqb] in E. exists p. auto.
    + assert (Hn1 : (1 <= n)%nat) by lia.
      destruct d as [|[|[|[|d]]]]; try lia.
      * unfold warp_and_blend_nodes. destruct (Nat.eqb_spec n 0); [lia|]. eexists. split; [reflexivity|]. split; [reflexivity|]. cbn [pts_cols]. constructor.
        -- cbn [length space_dim]. now rewrite comb_0_r.
        -- intros x [<-|[]]. split; [reflexivity|exact I].
        -- intros f _ HZ x Hx. destruct x; [|discriminate]. apply HZ. now left.
      * destruct (C51_one_dim eigh rj n Hn1 (HG ltac:(lia) Hn1)) as (xs & _ & E & L1 & _ & _ & HI & _). rewrite E. eexists. split; [reflexivity|]. split; [reflexivity|]. cbn [pts_cols].
        apply line_nodes; [easy|]. apply (proj2 (NoDup_nth xs 0)). intros i j Hi Hj Eij. destruct (Nat.lt_total i j) as [K|[K|K]]; [specialize (HI i j ltac:(lia)); lra|easy|specialize (HI j i ltac:(lia)); lra].
      * specialize (H4 ltac:(lia)). destruct (setup_low eigh rj n ltac:(lia) (HG ltac:(lia) Hn1)) as (xs & F & EX & SX & EW & HF & FO & B1 & B4). destruct (default_tuples 2 n ltac:(lia)) as [ET HT].
        assert (R0 : warp_and_blend_nodes eigh rj 2 n None = warp_and_blend_2d_with eigh rj (alpha_2d n) n None) by (unfold warp_and_blend_nodes; destruct (Nat.eqb_spec n 0); [lia|reflexivity]).
        rewrite R0, (wb2_run eigh rj n F Hn1 HF FO (alpha_2d n) None _ ET (fun t Ht => proj1 (HT t Ht))). eexists. split; [reflexivity|]. split; [reflexivity|]. cbn [pts_cols].
        apply (tri_nodes n xs F (alpha_2d n) ltac:(lia) SX EW FO B1 B4). now apply alphas.
      * specialize (H4 ltac:(lia)). destruct (setup_low eigh rj n ltac:(lia) (HG ltac:(lia) Hn1)) as (xs & F & EX & SX & EW & HF & FO & B1 & B4). destruct (default_tuples 3 n ltac:(lia)) as [ET HT].
        assert (R0 : warp_and_blend_nodes eigh rj 3 n None = warp_and_blend_3d_with eigh rj (alpha_3d n) n None) by (unfold warp_and_blend_nodes; destruct (Nat.eqb_spec n 0); [lia|reflexivity]).
        rewrite R0, (wb3_run eigh rj n F Hn1 HF FO (alpha_3d n) None _ ET (fun t Ht => proj1 (HT t Ht))). eexists. split; [reflexivity|]. split; [reflexivity|]. cbn [pts_cols].
        apply (tet_nodes n xs F (alpha_3d n) ltac:(lia) SX EW FO B1 B4). now apply alphas.
  - rewrite equidistant_eq. destruct EQ as (p & E & D & N). exists p. split; [exact E|easy].
Qed.
Lemma edge_nodes eigh rj s : forall sh, fits s sh -> edge_ok eigh s ->
  exists p, edge_clustered_nodes_for_space eigh rj s sh = Ok p /\ pts_dim p = spatial_dim s /\ nodes_of s (pts_cols p).
Proof.
  induction s as [d n|c ss IH] using fspace_ind'; intros sh HF HO; inversion HF as [|? ? ? shs HFs]; subst.
  - now apply edge_pn.
  - inversion HO as [|? ? HOs]; subst. pose proof (fits_dim _ _ HF) as Hd.
    assert (exists ps, zipM (fun b s => edge_clustered_nodes_for_space eigh rj b s) ss shs = Ok ps
       /\ Forall2 (fun s p => nodes_of s (pts_cols p) /\ wf_pts p /\ NoDup (pts_cols p)) ss ps /\ map pts_dim ps = map spatial_dim ss) as (ps & Ez & HP & ED).
    { clear HF HO Hd. induction HFs as [|s sh ss shs H1 HFs IHF]; [exists []; split; [reflexivity|split; [constructor|reflexivity]]|].
      inversion IH as [|? ? I1 I2]; subst. inversion HOs as [|? ? O1 O2]; subst.
      destruct (IHF I2 O2) as (ps & Ez & HP & ED). destruct (I1 sh H1 O1) as (p & Ep & Dp & HN).
      exists (p :: ps). split; [cbn [zipM]; rewrite Ep; cbn [bind]; rewrite Ez; reflexivity|]. split; [|cbn [map]; congruence]. constructor; [|easy]. split; [easy|]. split; [|eapply nodes_NoDup; eauto].
      unfold wf_pts. rewrite Dp. apply Forall_forall. apply (nodes_of_dim _ _ HN). }
    destruct (tensor_nodes c ss ps HP) as (p & E & HN).
    assert (DP : pts_dim p = sum_nat (map spatial_dim ss)).
    { rewrite <- ED. assert (W : Forall wf_pts ps) by (clear -HP; induction HP as [|? ? ? ? (_ & W & _) _ IH]; constructor; auto). destruct (tensor_product_pts_ok ps W) as (p' & E' & D' & _). assert (p' = p) by congruence. now subst. }
    exists p. split; [|easy].
    cbn [edge_clustered_nodes_for_space]. rewrite Hd. cbn [shape_dim]. rewrite Nat.eqb_refl. cbn [negb]. rewrite Ez. exact E.
Qed.
