(** * C70: face mass matrices are exact, and mass, differentiation and face matrices satisfy summation by parts *)
From Coquelicot Require Import Coquelicot.
From Coq Require Import List Arith Bool ZArith Reals Lra Lia.
From Verif Require Import Py PyToolsModel RSum IntFacts RField ModelLinAlg ProofLinAlg ModelNd ModelShapes ModelSpaces ModelNodes ModelModes ModelBasis ModelQuad
  ModelMatrices ModelFaces ModelMatricesDeprecated EnumFacts SpecIndex SpecGeometry SpecFaces SpecIntegral SpecPoly SpecPartial SpecSpan ProofNodeTuples ProofTPCall ProofTPNodes ProofMonomial ProofBasisDeriv
  ProofPKDO ProofTPOrtho ProofSpaces ProofBasisIndex ProofEquispaced ProofQuad ProofMatrices ProofMatrices2 ProofDiffPerm ProofMatrices3 ProofExchange ProofFaces ProofFaces2 PropsFaces PropsQuad
  ProofUnisolvent PropsBasis PropsMatrices PropsUnisolvent ProofSpaceNodes PropsEdgeNodes ProofGradGood ProofGradGood2 PropsGradGood
  ProofDeprecated2 PropsDeprecated ProofDivergence ProofDivergence2 PropsDivergence ProofTrace.
Import ListNotations.
Local Open Scope R_scope.

(** The rule integrates products of two functions of the space over the shape. *)
Definition integrates_products (q : quad) (sh : shape) (V : fspace) : Prop :=
  forall g h, in_space V g -> in_space V h ->
    exists v, is_int sh (fun p => g p * h p) v /\ q_call q (fun p => Ok (g p * h p)) = Ok v.
(** A rule of twice the degree of the space does. *)
Theorem C70_rules q sh V : shape_dim sh = spatial_dim V -> integrates q sh (max_degree V + max_degree V) -> integrates_products q sh V.
Proof.
  intros HD HI g h (t1 & A1 & B1) (t2 & A2 & B2).
  assert (P : forall f ts, Forall (fun t => space_exp V (snd t)) ts -> (forall x, length x = spatial_dim V -> f x = polyval ts x) -> is_poly (shape_dim sh) (max_degree V) f).
  { intros f ts A B. exists ts. rewrite HD. split; [|exact B]. eapply Forall_impl; [|exact A]. cbv beta. intros t Ht. split; [now apply space_exp_len|]. exact (C67_degree V (snd t) Ht). }
  apply HI. apply is_poly_mult; [exact (P g t1 A1 B1)|exact (P h t2 A2 B2)].
Qed.

Lemma coefficients s sh b fs f : fits s sh -> offered s sh b -> functions Rops b = Ok fs -> in_space s f ->
  exists c, forall x, length x = spatial_dim s -> good_point b x -> lin fs c x = f x.
Proof.
  intros HF HO Ef Hf. destruct (basis_spans s b (offered_basis s sh b HF HO)) as (ms & HM & HS). destruct (HS f Hf) as (c & Hc).
  assert (fs = map fst ms) as -> by (destruct HM as (X & _); congruence). exists c. intros x Hx Hg. rewrite Hc by easy. now apply (modes_lin s b).
Qed.
Lemma defined_good s sh b fs xs : fits s sh -> offered s sh b -> functions Rops b = Ok fs -> (forall x, In x xs -> length x = spatial_dim s /\ good_point b x) -> defined_on fs xs.
Proof.
  intros HF HO Ef Hx. destruct (basis_modes s b (offered_basis s sh b HF HO)) as (ms & HM). assert (fs = map fst ms) as -> by (destruct HM as (X & _); congruence).
  intros f x Hf H. apply in_map_iff in Hf. destruct Hf as (m & <- & Hm). destruct HM as (_ & _ & HM). rewrite Forall_forall in HM. destruct (HM m Hm) as [_ V0]. destruct (Hx x H). rewrite V0; eauto.
Qed.
Lemma space_fits s n sp : has_faces s -> space_for_shape s (OInt n) = Ok sp -> fits sp s /\ pn_dims 1 3 sp.
Proof.
  intros H Es. destruct (has_faces_cases s H) as [-> | [-> | [-> | [-> | ->]]]].
  1-3: injection Es as <-; split; [constructor|constructor; lia].
  - destruct (square_space n) as (t & Et). assert (sp = TPSpace t [PN 1 n; PN 1 n]) as -> by (assert (X := eq_trans (eq_sym Es) Et); injection X; auto).
    split; [apply (fits_tp t CHypercube [PN 1 n; PN 1 n] [Simplex 1; Simplex 1]); repeat constructor|repeat constructor].
  - destruct (cube_space n) as (t & Et). assert (sp = TPSpace t [PN 1 n; PN 1 n; PN 1 n]) as -> by (assert (X := eq_trans (eq_sym Es) Et); injection X; auto).
    split; [apply (fits_tp t CHypercube [PN 1 n; PN 1 n; PN 1 n] [Simplex 1; Simplex 1; Simplex 1]); repeat constructor|repeat constructor].
Qed.
Lemma face_fits s faces i f n fsp : has_faces s -> faces_for_shape s = Ok faces -> nth_error faces i = Some f -> space_for_shape (face_shape f) (OInt n) = Ok fsp -> fits fsp (face_shape f).
Proof.
  intros H E Hi Es. destruct (has_faces_cases s H) as [-> | [-> | [-> | [-> | ->]]]].
  - rewrite simplex1_faces_ok in E. assert (faces = simplex1_faces) as -> by congruence. destruct (seg_images i f Hi) as (S1 & _). rewrite S1 in *. injection Es as <-. constructor.
  - rewrite simplex2_faces_ok in E. assert (faces = simplex2_faces) as -> by congruence. destruct (tri_images i f Hi) as (S1 & _). rewrite S1 in *. injection Es as <-. constructor.
  - rewrite simplex3_faces_ok in E. assert (faces = simplex3_faces) as -> by congruence. destruct (tet_images i f Hi) as (S1 & _). rewrite S1 in *. injection Es as <-. constructor.
  - rewrite cube2_faces_ok in E. assert (faces = cube2_faces) as -> by congruence. destruct (sq_images i f Hi) as (S1 & _). rewrite S1 in *. injection Es as <-. constructor.
  - rewrite cube3_faces_ok in E. assert (faces = cube3_faces) as -> by congruence. destruct (cube_images i f Hi) as (S1 & _). rewrite S1 in *.
    destruct (square_space n) as (t & Et). assert (fsp = TPSpace t [PN 1 n; PN 1 n]) as -> by (assert (X := eq_trans (eq_sym Es) Et); injection X; auto).
    apply (fits_tp t CHypercube [PN 1 n; PN 1 n] [Simplex 1; Simplex 1]). repeat constructor.
Qed.

(** ** Discretised faces *)
(** The data for one face: a basis of the face's space with its functions, nodes that determine that space, and
    a rule for products; no point strictly inside a tolerance strip. *)
Record face_data := mkFaceData { fd_basis : basis; fd_funs : list (list R -> res R); fd_nodes : list (list R); fd_quad : quad }.
Definition face_data_ok (f : face) (fsp : fspace) (b : basis) (d : face_data) : Prop :=
  offered fsp (face_shape f) (fd_basis d) /\ functions Rops (fd_basis d) = Ok (fd_funs d)
  /\ determine fsp (fd_nodes d) /\ (forall y, In y (fd_nodes d) -> good_point (fd_basis d) y)
  /\ q_flat (fd_quad d) = false /\ length (q_weights (fd_quad d)) = length (q_nodes (fd_quad d))
  /\ (forall p, In p (q_nodes (fd_quad d)) -> length p = spatial_dim fsp /\ good_point (fd_basis d) p /\ good_point b (image f p))
  /\ integrates_products (fd_quad d) (face_shape f) fsp.

(** The nodal face mass matrix is computed and gives the integral over the face of the trace of every
    polynomial of the element's space times every polynomial of the face's space. *)
Theorem C70_face_mass s faces i f n sp fsp b fs xs d : has_faces s -> faces_for_shape s = Ok faces -> nth_error faces i = Some f ->
  space_for_shape s (OInt n) = Ok sp -> space_for_shape (face_shape f) (OInt n) = Ok fsp ->
  offered sp s b -> functions Rops b = Ok fs -> determine sp xs -> (forall x, In x xs -> good_point b x) -> face_data_ok f fsp b d ->
  exists A, nodal_mass_matrix_for_face f (fd_quad d) (fd_funs d) fs xs (fd_nodes d) = Ok A /\ nrows A = length xs /\ ncols A = length (fd_nodes d)
    /\ forall F g, in_space sp F -> in_space fsp g ->
         is_int (face_shape f) (fun p => F (image f p) * g p)
           (rsum (fun i => F (pt xs i) * rsum (fun j => ent A i j * g (pt (fd_nodes d) j)) (length (fd_nodes d))) (length xs)).
Proof.
  intros H E Hi Es Ef HO EF HN HG (FO & FE & FN & FG & QF & QL & QN & QI).
  destruct (space_fits s n sp H Es) as [HF _]. assert (FF := face_fits s faces i f n fsp H E Hi Ef).
  assert (FD : spatial_dim fsp = shape_dim (face_shape f)) by (now apply fits_dim). assert (SD : spatial_dim sp = shape_dim s) by (now apply fits_dim).
  set (q := fd_quad d) in *. set (ys := fd_nodes d) in *. set (ffs := fd_funs d) in *.
  assert (IM : forall p, In p (q_nodes q) -> map_to_volume f p = Ok (image f p) /\ length (image f p) = spatial_dim sp).
  { intros p Hp. destruct (QN p Hp) as (Lp & _). destruct (image_ok s faces i f p H E Hi) as [I1 I2]; [congruence|]. split; [exact I1|congruence]. }
  assert (ET : mapM (map_to_volume f) (q_nodes q) = Ok (map (image f) (q_nodes q))) by (apply mapM_Ok; intros p Hp; now apply IM).
  assert (D1 : defined_on fs (map (image f) (q_nodes q))).
  { apply (defined_good sp s b fs _ HF HO EF). intros x Hx. apply in_map_iff in Hx. destruct Hx as (p & <- & Hp). split; [now apply IM|now apply (QN p)]. }
  assert (D3 : defined_on ffs (q_nodes q)) by (apply (defined_good fsp _ _ _ _ FF FO FE); intros p Hp; destruct (QN p Hp) as (? & ? & _); auto).
  destruct (uni_space sp b xs (offered_basis sp s b HF HO) HN HG) as (fs' & EF' & D2 & U2). assert (fs' = fs) by congruence. subst fs'.
  destruct (uni_space fsp (fd_basis d) ys (offered_basis _ _ _ FF FO) FN FG) as (ffs' & FE' & D4 & U4). assert (ffs' = ffs) by congruence. subst ffs'.
  destruct (C69_face_succeeds f q ffs fs xs ys _ QL QF ET D1 D2 D3 D4 U4 U2) as (A & EA). exists A. split; [exact EA|].
  rewrite (C69_face_mass f q ffs fs xs ys _ QL QF ET D1 D2 D3 D4 (proj1 U4) (proj1 U2)) in EA.
  destruct (C69_face_pairing f q ffs fs xs ys A QL QF EA) as (R1 & C1 & HP). split; [exact R1|]. split; [exact C1|]. intros F g HFs Hg.
  destruct (coefficients sp s b fs F HF HO EF HFs) as (c & Hc). destruct (coefficients fsp _ _ ffs g FF FO FE Hg) as (e & He).
  destruct (QI (fun p => F (image f p)) g (trace s faces i f n sp fsp F H E Hi Es Ef HFs) Hg) as (v & Hv & HQ).
  eapply int_cast; [exact Hv|]. specialize (HP c e).
  rewrite (q_call_rsum q (fun x => lin fs c (image f x) * lin ffs e x)) in HP by exact QL. rewrite (q_call_rsum q (fun x => F (image f x) * g x)) in HQ by exact QL.
  injection HP as HP. injection HQ as HQ. rewrite <- HQ. etransitivity; [etransitivity; [|exact HP]|].
  - apply rsum_ext. intros k Hk. assert (Hin := pt_in _ _ Hk). destruct (QN _ Hin) as (? & ? & ?). rewrite Hc, He; auto. now apply IM.
  - apply rsum_ext. intros k Hk. assert (Hin := pt_in _ _ Hk). rewrite Hc; [|now apply HN|now apply HG]. f_equal. apply rsum_ext. intros j Hj. assert (Hin' := pt_in _ _ Hj).
    rewrite He; [reflexivity|now apply FN|now apply FG].
Qed.

(** ** Summation by parts *)
Lemma rsum_delta N a (X : nat -> R) : (a < N)%nat -> rsum (fun i => (if (i =? a)%nat then 1 else 0) * X i) N = X a.
Proof.
  intros Ha. rewrite (rsum_single _ N a Ha); [rewrite Nat.eqb_refl; ring|]. intros j Hj Hne. destruct (Nat.eqb_spec j a); [congruence|ring].
Qed.
Lemma rsum_delta_r N a (X : nat -> R) : (a < N)%nat -> rsum (fun i => X i * (if (i =? a)%nat then 1 else 0)) N = X a.
Proof. intros Ha. rewrite <- (rsum_delta N a X Ha). apply rsum_ext. intros; ring. Qed.

Definition or_empty (r : res nmat) : nmat := match r with Ok A => A | Err _ => mkMat 0 0 (fun _ _ => 0) end.
(** For every element with nodes that determine its space, and every choice of nodes, bases and rules on the faces:
    M D_k + (M D_k)^T is the sum over the faces of the k-th component of the normal times the surface Jacobian
    times the face mass matrix times the matrix that resamples to the face's nodes. *)
Theorem C70_summation_by_parts junk ls s faces n sp b fs xs (fd : nat -> face_data) :
  has_faces s -> faces_for_shape s = Ok faces -> space_for_shape s (OInt n) = Ok sp ->
  orthonormal_basis_for_space sp s = Ok b -> functions Rops b = Ok fs -> determine sp xs -> (forall x, In x xs -> good_point b x) ->
  (forall i f, nth_error faces i = Some f -> exists fsp, space_for_shape (face_shape f) (OInt n) = Ok fsp /\ face_data_ok f fsp b (fd i)
     /\ forall y, In y (fd_nodes (fd i)) -> good_point b (image f y)) ->
  exists (M : nmat) (Ds : list nmat) (A R : nat -> nmat) (nv : nat -> list Rdefinitions.R) (w : nat -> Rdefinitions.R),
    mass_matrix (inl b) xs = Ok M /\ diff_matrices junk b xs None = Ok Ds /\ length Ds = shape_dim s
    /\ (forall i f, nth_error faces i = Some f ->
          nodal_mass_matrix_for_face f (fd_quad (fd i)) (fd_funs (fd i)) fs xs (fd_nodes (fd i)) = Ok (A i)
          /\ resampling_matrix fs (map (image f) (fd_nodes (fd i))) xs ls = Ok (R i)
          /\ face_normal f true = Ok (nv i) /\ w i = surface_jacobian f)
    /\ forall k D, nth_error Ds k = Some D -> forall a c, (a < length xs)%nat -> (c < length xs)%nat ->
         rsum (fun j => ent M a j * ent D j c) (length xs) + rsum (fun j => ent D j a * ent M j c) (length xs)
         = rsum (fun i => nth k (nv i) 0 * (w i * rsum (fun j => ent (A i) a j * ent (R i) j c) (length (fd_nodes (fd i))))) (length faces).
Proof.
  intros H E Es Eb EF HN HG HFD. destruct (space_fits s n sp H Es) as [HF HP]. assert (HO : offered sp s b) by (right; left; auto).
  assert (SD : spatial_dim sp = shape_dim s) by (now apply fits_dim).
  destruct (C66_operators sp s xs b HF HN HP Eb HG) as (HR & _ & M & EM & HM).
  destruct (C67_own_nodes junk sp s b xs HF HO HN HG) as (Ds & ED & LD & _ & HD & _).
  set (Am := fun i => match nth_error faces i with Some f => or_empty (nodal_mass_matrix_for_face f (fd_quad (fd i)) (fd_funs (fd i)) fs xs (fd_nodes (fd i))) | None => mkMat 0 0 (fun _ _ => 0) end).
  set (Rm := fun i => match nth_error faces i with Some f => or_empty (resampling_matrix fs (map (image f) (fd_nodes (fd i))) xs ls) | None => mkMat 0 0 (fun _ _ => 0) end).
  set (nn := fun i => match nth_error faces i with Some f => match face_normal f true with Ok v => v | Err _ => [] end | None => [] end).
  set (ww := fun i => match nth_error faces i with Some f => surface_jacobian f | None => 0 end).
  exists M, Ds, Am, Rm, nn, ww. split; [exact EM|]. split; [exact ED|]. split; [congruence|].
  assert (FA : forall i f, nth_error faces i = Some f ->
      nodal_mass_matrix_for_face f (fd_quad (fd i)) (fd_funs (fd i)) fs xs (fd_nodes (fd i)) = Ok (Am i)
      /\ (forall F G, in_space sp F -> in_space sp G -> is_int (face_shape f) (fun p => F (image f p) * G (image f p))
           (rsum (fun p => F (pt xs p) * rsum (fun j => ent (Am i) p j * G (image f (pt (fd_nodes (fd i)) j))) (length (fd_nodes (fd i)))) (length xs)))).
  { intros i f Hi. destruct (HFD i f Hi) as (fsp & Ef & HOK & _).
    destruct (C70_face_mass s faces i f n sp fsp b fs xs (fd i) H E Hi Es Ef HO EF HN HG HOK) as (A & EA & _ & _ & HI).
    assert (EAm : Am i = A) by (unfold Am; rewrite Hi, EA; reflexivity). rewrite EAm. split; [exact EA|]. intros F G HFs HGs.
    exact (HI F (fun p => G (image f p)) HFs (trace s faces i f n sp fsp G H E Hi Es Ef HGs)). }
  assert (FR : forall i f, nth_error faces i = Some f -> resampling_matrix fs (map (image f) (fd_nodes (fd i))) xs ls = Ok (Rm i)
      /\ forall G, in_space sp G -> forall j, (j < length (fd_nodes (fd i)))%nat -> rsum (fun k => ent (Rm i) j k * G (pt xs k)) (length xs) = G (image f (pt (fd_nodes (fd i)) j))).
  { intros i f Hi. destruct (HFD i f Hi) as (fsp & Ef & HOK & HY). destruct HOK as (_ & _ & (_ & HL & _) & _).
    assert (FF := face_fits s faces i f n fsp H E Hi Ef). assert (FD : spatial_dim fsp = shape_dim (face_shape f)) by (now apply fits_dim).
    destruct (HR (map (image f) (fd_nodes (fd i))) ls) as (fs' & R' & EF' & ER & _ & _ & HX).
    { intros x Hx. apply in_map_iff in Hx. destruct Hx as (y & <- & Hy). split; [|now apply HY]. rewrite SD. apply (image_ok s faces i f y H E Hi). rewrite <- FD. now apply HL. }
    assert (fs' = fs) by congruence. subst fs'. assert (ERm : Rm i = R') by (unfold Rm; rewrite Hi, ER; reflexivity). rewrite ERm. split; [exact ER|].
    intros G HGs j Hj. rewrite HX; [|exact HGs|now rewrite map_length]. f_equal. unfold pt.
    rewrite (nth_indep (map (image f) (fd_nodes (fd i))) [] (image f [])) by (now rewrite map_length). apply map_nth. }
  split.
  { intros i f Hi. split; [now apply FA|]. split; [now apply FR|]. destruct (C68_scaling s faces i f H E Hi) as (v & m & Ev & _).
    unfold nn, ww. rewrite Hi, Ev. auto. }
  intros k D Ek a c Ha Hc. assert (Hk : (k < shape_dim s)%nat) by (rewrite <- SD, <- LD; apply nth_error_Some; rewrite Ek; discriminate).
  destruct (own_interp sp s xs HF HN (fun i => if (i =? a)%nat then 1 else 0)) as (t1 & T1 & V1).
  destruct (own_interp sp s xs HF HN (fun i => if (i =? c)%nat then 1 else 0)) as (t2 & T2 & V2).
  assert (IS : forall ts, terms sp ts -> in_space sp (polyval ts)) by (intros ts Ht; exists ts; split; [exact Ht|easy]).
  destruct (in_space_poly sp _ (IS _ T1)) as (N1 & P1). destruct (in_space_poly sp _ (IS _ T2)) as (N2 & P2). rewrite SD in P1, P2.
  destruct (C68_by_parts s faces (polyval t1) (polyval t2) N1 N2 k (polyval (dpoly k t1)) (polyval (dpoly k t2)) H E P1 P2 Hk) as (n' & w' & J & HJ & HI).
  { intros x Hx. apply (polyval_deriv sp); [exact T1|congruence|lia]. }
  { intros x Hx. apply (polyval_deriv sp); [exact T2|congruence|lia]. }
  assert (I1 := HM _ _ (IS _ (terms_dpoly sp k t1 T1)) (IS _ T2)). assert (I2 := HM _ _ (IS _ T1) (IS _ (terms_dpoly sp k t2 T2))).
  assert (I3 := is_int_plus _ _ _ _ _ I1 I2). cbv beta in I3. assert (EQ := is_int_unique s _ _ _ I3 HI). clear I1 I2 I3.
  rewrite Rplus_comm. etransitivity; [|etransitivity; [exact EQ|]].
  - f_equal.
    + apply rsum_ext. intros j Hj. rewrite <- (own_apply sp xs Ds HN LD HD t1 k D j T1 Ek Hj). f_equal.
      * transitivity (rsum (fun i => ent D j i * (if (i =? a)%nat then 1 else 0)) (length xs)); [symmetry; now apply rsum_delta_r|]. apply rsum_ext. intros i Hi. f_equal. exact (V1 i Hi).
      * transitivity (rsum (fun i => ent M j i * (if (i =? c)%nat then 1 else 0)) (length xs)); [symmetry; now apply rsum_delta_r|]. apply rsum_ext. intros i Hi. f_equal. exact (V2 i Hi).
    + transitivity (rsum (fun p => (if (p =? a)%nat then 1 else 0) * rsum (fun j => ent M p j * ent D j c) (length xs)) (length xs)); [symmetry; exact (rsum_delta _ a (fun p => rsum (fun j => ent M p j * ent D j c) (length xs)) Ha)|].
      apply rsum_ext. intros p Hp. rewrite (V1 p Hp). f_equal. apply rsum_ext. intros j Hj. f_equal. rewrite <- (own_apply sp xs Ds HN LD HD t2 k D j T2 Ek Hj).
      transitivity (rsum (fun i => ent D j i * (if (i =? c)%nat then 1 else 0)) (length xs)); [symmetry; now apply rsum_delta_r|]. apply rsum_ext. intros i Hi. f_equal. exact (V2 i Hi).
  - apply rsum_ext. intros i Hi. destruct (nth_error faces i) as [f|] eqn:Ei; [|apply nth_error_None in Ei; lia].
    destruct (HJ i f Ei) as (En & Ew & IJ). unfold nn, ww. rewrite Ei, En, Ew. do 2 f_equal.
    destruct (FA i f Ei) as (_ & IA). rewrite (is_int_unique _ _ _ _ IJ (IA _ _ (IS _ T1) (IS _ T2))).
    transitivity (rsum (fun p => (if (p =? a)%nat then 1 else 0) * rsum (fun j => ent (Am i) p j * ent (Rm i) j c) (length (fd_nodes (fd i)))) (length xs)); [|exact (rsum_delta _ a (fun p => rsum (fun j => ent (Am i) p j * ent (Rm i) j c) (length (fd_nodes (fd i)))) Ha)].
    apply rsum_ext. intros p Hp. rewrite <- (V1 p Hp). f_equal. apply rsum_ext. intros j Hj. f_equal. destruct (FR i f Ei) as (_ & HX).
    rewrite <- (HX _ (IS _ T2) j Hj). transitivity (rsum (fun k => ent (Rm i) j k * (if (k =? c)%nat then 1 else 0)) (length xs)); [|now apply rsum_delta_r].
    apply rsum_ext. intros l Hl. f_equal. symmetry. exact (V2 l Hl).
Qed.

(** ** Non-vacuity: the linear triangle with its vertices as nodes, end points and two-point Gauss rule on each face *)
Lemma gauss2_products : integrates_products ex_quad (Simplex 1) (PN 1 1).
Proof.
  apply C70_rules; [reflexivity|]. apply integrates_exact_on; [split; [repeat constructor|reflexivity]|]. cbn [max_degree Nat.add].
  apply exact_on_monomials; [split; [repeat constructor|reflexivity]|reflexivity|intros x Hx; exact (in_shape_len (Simplex 1) (sh_simplex 1) x Hx)|].
  assert (S3 : / sqrt 3 * / sqrt 3 = 1 / 3) by (rewrite <- Rinv_mult, sqrt_sqrt by lra; lra).
  intros e Le Te. destruct e as [|k [|]]; try discriminate. cbn [is_int is_int_simplex]. exists (fun t => monoval [k] [t]). split; [reflexivity|]. replace (-1 + 2) with 1 by ring.
  assert (V0 : rule ex_quad (monoval [k]) = (- / sqrt 3) ^ k + (/ sqrt 3) ^ k) by (unfold rule, ex_quad, dotR; cbn [q_weights q_nodes map combine fold_right fst snd monoval]; ring).
  rewrite V0. assert (Hk : (k <= 2)%nat) by (unfold total in Te; cbn in Te; lia). clear Te. cbn [monoval].
  eapply (is_RInt_ext (fun t => t ^ k)); [intros x _; symmetry; apply Rmult_1_r|].
  assert (D : forall x, is_derive (fun t => t ^ S k / INR (S k)) x (x ^ k)).
  { intros x. auto_derive; [easy|]. replace (match k with O => 1 | S _ => INR k + 1 end) with (INR (S k)) by reflexivity. cbn [pow]. field. apply not_0_INR. lia. }
  assert (X := is_RInt_derive (V := R_CompleteNormedModule) (fun t => t ^ S k / INR (S k)) (fun t => t ^ k) (-1) 1 (fun x _ => D x)).
  match type of X with ?P -> _ => assert (HC : P) end.
  { intros x _. apply (ex_derive_continuous (fun t => t ^ k)). auto_derive. easy. }
  specialize (X HC). match goal with |- is_RInt _ _ _ ?v => match type of X with is_RInt _ _ _ ?u => replace v with u; [exact X|] end end.
  unfold minus, Hierarchy.plus, opp; cbn -[pow INR]. clear X HC D V0. destruct k as [|[|[|k]]]; [cbn; lra|cbn; lra| |lia].
  cbn [pow INR]. replace (- / sqrt 3 * (- / sqrt 3 * 1) + / sqrt 3 * (/ sqrt 3 * 1)) with (2 * (/ sqrt 3 * / sqrt 3)) by ring. rewrite S3. lra.
Qed.

Example C70_example : exists b fs xs fd, orthonormal_basis_for_space (PN 2 1) (Simplex 2) = Ok b /\ functions Rops b = Ok fs
  /\ determine (PN 2 1) xs /\ (forall x, In x xs -> good_point b x)
  /\ forall i f, nth_error simplex2_faces i = Some f -> exists fsp, space_for_shape (face_shape f) (OInt 1) = Ok fsp /\ face_data_ok f fsp b (fd i)
     /\ forall y, In y (fd_nodes (fd i)) -> good_point b (image f y).
Proof.
  assert (F2 : fits (PN 2 1) (Simplex 2)) by constructor. assert (F1 : fits (PN 1 1) (Simplex 1)) by constructor.
  assert (O : forall d, orders_ok (PN d 1)) by (intros d; constructor; cbn; lra).
  destruct (equi_nodes _ _ F2 (O 2%nat)) as (p & Ep & HN). destruct (equi_nodes _ _ F1 (O 1%nat)) as (p1 & Ep1 & HN1).
  assert (E1 : pts_cols p1 = [[-1]; [1]]).
  { cbn in Ep1. injection Ep1 as <-. cbn. repeat f_equal; field. }
  exists (SimplexONB 2 1). eexists. exists (pts_cols p). exists (fun _ => mkFaceData (SimplexONB 1 1) (match functions Rops (SimplexONB 1 1) with Ok l => l | Err _ => [] end) [[-1]; [1]] ex_quad).
  split; [reflexivity|]. split; [reflexivity|]. split; [exact (nodes_of_space_nodes _ _ HN)|].
  assert (B2 : basis_of (PN 2 1) (SimplexONB 2 1)) by (destruct (onb_basis_of _ _ F2 ltac:(constructor; lia)) as (b & Eb & Hb); assert (b = SimplexONB 2 1) as <- by (cbn in Eb; congruence); exact Hb).
  split; [intros x Hx; exact (nodes_good _ _ _ B2 HN x Hx)|].
  assert (S3 : 0 < / sqrt 3 < 1).
  { assert (0 < sqrt 3) by (apply sqrt_lt_R0; lra). assert (1 < sqrt 3) by (rewrite <- sqrt_1; apply sqrt_lt_1; lra). split; [now apply Rinv_0_lt_compat|]. rewrite <- Rinv_1. apply Rinv_lt_contravar; lra. }
  assert (T : / 10 ^ 12 <= 1 / 4). { assert (X := pow_le 10 12 ltac:(lra)). assert (Y : 4 <= 10 ^ 12) by (cbn; lra). assert (Z := Rinv_le_contravar 4 (10 ^ 12) ltac:(lra) Y). lra. }
  intros i f Hi. destruct (tri_images i f Hi) as (S1 & _). exists (PN 1 1). rewrite S1. split; [reflexivity|].
  assert (IMG : forall u, -1 <= u <= 1 -> (u = -1 \/ u = 1 \/ Rabs u <= 3 / 4) -> good_point (SimplexONB 2 1) (image f [u])).
  { intros u Hu Hc. assert (X : image f [u] = [u; -1] \/ image f [u] = [-1; - u] \/ image f [u] = [- u; u]).
    { destruct i as [|[|[|i]]]; [| | |destruct i; discriminate]; cbn in Hi; injection Hi as <-.
      - left. unfold image. cbn [map_to_volume]. eval_map. lists_eq; field.
      - right; left. unfold image. cbn [map_to_volume]. eval_map. lists_eq; field.
      - right; right. unfold image. cbn [map_to_volume]. eval_map. lists_eq; field. }
    destruct X as [-> | [-> | ->]]; cbn [good_point nth]; unfold good2.
    - left. rewrite Rabs_left by lra. lra.
    - destruct Hc as [-> |[-> |Hc]]; [right; lra|left; rewrite Rabs_left by lra; lra|left]. apply Rabs_le_between in Hc. rewrite Rabs_left by lra. lra.
    - destruct Hc as [-> |[-> |Hc]]; [left; rewrite Rabs_left by lra; lra|right; lra|left]. apply Rabs_le_between in Hc. rewrite Rabs_left by lra. lra. }
  split.
  - split; [rewrite S1; right; left; split; [constructor; lia|reflexivity]|]. split; [reflexivity|]. split; [rewrite <- E1; exact (nodes_of_space_nodes _ _ HN1)|].
    split; [intros y _; exact I|]. split; [reflexivity|]. split; [reflexivity|]. split; [|rewrite S1; exact gauss2_products].
    assert (Q : / sqrt 3 <= 3 / 4). { assert (X : / sqrt 3 * / sqrt 3 = 1 / 3) by (rewrite <- Rinv_mult, sqrt_sqrt by lra; lra). nra. }
    intros q [<-|[<-|[]]]; (split; [reflexivity|]; split; [exact I|]); apply IMG; try lra; right; right; [rewrite Rabs_Ropp|]; rewrite Rabs_right by lra; lra.
  - intros y [<-|[<-|[]]]; apply IMG; lra.
Qed.

Print Assumptions C70_rules.
Print Assumptions C70_face_mass.
Print Assumptions C70_summation_by_parts.
