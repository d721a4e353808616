(** * C62: the diagonal mass matrix of the spectral element method *)
From Coquelicot Require Import Coquelicot.
From Coq Require Import List Arith Bool ZArith QArith Reals Lra Lia.
From Verif Require Import Py PyToolsModel ModelNd ModelShapes ModelSpaces ModelNodes ModelModes ModelQuad ModelGM ModelGauss ModelLinAlg ModelTools ModelQuadSpace ModelMatrices.
From Verif Require Import RSum EnumFacts IntFacts SpecIndex SpecGeometry SpecPoly SpecIntegral ProofNodeTuples ProofDirichlet
  ProofGM ProofQuad PropsGM PropsQuad ProofBasisIndex ProofGauss3 PropsGauss PropsLobatto ProofShapes ProofQuadSpace PropsQuadSpace.
Import ListNotations.
Local Open Scope R_scope.

(** Polynomials of degree at most [n] in each of [d] variables *)
Definition Qspace (d n : nat) : (list R -> R) -> Prop := in_space (TPSpace SQN (repeat (PN 1 n) d)).

Lemma span_mult d (G1 G2 G3 : (list R -> R) -> Prop) : (forall f g, G1 f -> G2 g -> lin_span d G3 (fun x => f x * g x)) ->
  forall f g, lin_span d G1 f -> lin_span d G2 g -> lin_span d G3 (fun x => f x * g x).
Proof.
  intros H f g Hf Hg. induction Hf as [f Hf|h Hh|f1 f2 h _ IH1 _ IH2 E|c f h _ IH E].
  - induction Hg as [g Hg|h Hh|g1 g2 h _ IH1 _ IH2 E|c g h _ IH E].
    + now apply H.
    + apply span_zero. intros x Hx. rewrite Hh by easy. ring.
    + apply (span_plus _ _ _ _ _ IH1 IH2). intros x Hx. rewrite E by easy. ring.
    + apply (span_scal _ _ c _ _ IH). intros x Hx. rewrite E by easy. ring.
  - apply span_zero. intros x Hx. rewrite Hh by easy. ring.
  - apply (span_plus _ _ _ _ _ IH1 IH2). intros x Hx. rewrite E by easy. ring.
  - apply (span_scal _ _ c _ _ IH). intros x Hx. rewrite E by easy. ring.
Qed.
Lemma prod_app_mult : forall fs gs xs, length fs = length xs -> length gs = length xs ->
  prod_app fs xs * prod_app gs xs = prod_app (map (fun p => fun x => fst p x * snd p x) (combine fs gs)) xs.
Proof.
  induction fs as [|f fs IH]; intros [|g gs] [|x xs] L1 L2; try discriminate; unfold prod_app in *; cbn [combine map fold_right fst snd] in *; [ring|].
  injection L1 as L1. injection L2 as L2. rewrite <- (IH gs xs L1 L2). ring.
Qed.
Lemma Qspace_mult d n m f g : Qspace d n f -> Qspace d m g -> Qspace d (n + m) (fun x => f x * g x).
Proof.
  unfold Qspace. cbn [in_space].
  assert (S1 : forall k, sum_nat (map spatial_dim (repeat (PN 1 k) d)) = d) by (intros k; clear; induction d; [reflexivity|]; unfold sum_nat in *; cbn in *; lia).
  rewrite !S1. apply span_mult. intros f0 g0 (fs & Ff & Ef) (gs & Fg & Eg). apply span_gen.
  exists (map (fun p => fun x => fst p x * snd p x) (combine fs gs)). split.
  - clear -Ff Fg. revert fs gs Ff Fg. induction d as [|d IH]; intros fs gs Ff Fg; cbn [repeat map] in *; inversion Ff; inversion Fg; subst; cbn [combine map]; constructor.
    + cbn [fst snd in_space] in *. now apply is_poly_mult.
    + now apply IH.
  - intros xs Hxs.
    assert (LX : length xs = d) by (rewrite (EnumFacts.Forall2_length _ _ _ Hxs), map_length; apply repeat_length).
    assert (Cv : forall k, Forall2 (fun x P => length x = fst P) xs (map (fun b => (spatial_dim b, in_space b)) (repeat (PN 1 k) d))).
    { intros k. clear -Hxs. revert xs Hxs. induction d as [|d IH]; intros xs H; cbn [repeat map] in *; inversion H; subst; constructor; [easy|now apply IH]. }
    rewrite Ef, Eg by apply Cv. apply prod_app_mult.
    + rewrite LX. rewrite <- (EnumFacts.Forall2_length _ _ _ Ff), map_length. apply repeat_length.
    + rewrite LX. rewrite <- (EnumFacts.Forall2_length _ _ _ Fg), map_length. apply repeat_length.
Qed.

Definition box (d : nat) : shape := TPShape CTensorProduct d (repeat (Simplex 1) d).
(** [sum_k ws_k u(x_k) v(x_k)]: the bilinear form of the diagonal matrix with entries [ws]
    on the values at the nodes [xs] *)
Definition diag_form (ws : list R) (xs : list (list R)) (u v : list R -> R) : R :=
  rsum (fun k => nth k ws 0 * (u (nth k xs []) * v (nth k xs []))) (length xs).
Lemma rule_diag q u v : wf_quad q -> rule q (fun x => u x * v x) = diag_form (q_weights q) (q_nodes q) u v.
Proof.
  intros [_ L]. unfold rule, diag_form. rewrite dotR_rsum by now rewrite map_length. rewrite L. apply rsum_ext. intros k Hk. f_equal.
  rewrite (nth_indep _ 0 ((fun x => u x * v x) [])) by now rewrite map_length. apply (map_nth (fun x => u x * v x)).
Qed.
Lemma spectral_weights q0 d q : q_dim q0 = 1%nat -> tp_quad (repeat q0 d) = Ok q ->
  spectral_diag_nodal_mass_matrix (Some (repeat q0 d)) = Ok (q_weights q).
Proof.
  intros D E. unfold spectral_diag_nodal_mass_matrix. replace (forallb (fun q => q_dim q =? 1)%nat (repeat q0 d)) with true; [now rewrite E|].
  symmetry. apply forallb_forall. intros a Ha. apply repeat_spec in Ha. subst. now apply Nat.eqb_eq.
Qed.

(** With Gauss-Legendre points the diagonal matrix is the exact mass matrix on the
    functions of degree at most N in each variable. *)
Theorem C62_gauss eigh rj N d be : eigh_at eigh 0 0 N -> builtin be ->
  exists q0 q ws, legendre_gauss eigh rj N be true = Ok q0 /\ legendre_gauss_tp eigh rj N d be = Ok q
    /\ spectral_diag_nodal_mass_matrix (Some (repeat q0 d)) = Ok ws /\ length ws = length (q_nodes q)
    /\ forall u v, Qspace d N u -> Qspace d N v -> is_int (box d) (fun x => u x * v x) (diag_form ws (q_nodes q) u v).
Proof.
  intros HE HB. destruct (legendre_rule eigh rj N be true HE HB) as (q0 & E0 & W & D & X & I).
  destruct (tp_repeat_defined q0 d _ W D X) as (q & E). exists q0, q, (q_weights q). split; [exact E0|].
  split; [unfold legendre_gauss_tp; rewrite E0; exact E|]. split; [now apply spectral_weights|].
  destruct (tp_repeat_exact q0 q d _ W D I E) as [Wq EX]. split; [apply Wq|]. intros u v Hu Hv. rewrite <- rule_diag by easy. apply EX.
  assert (H := Qspace_mult d N N u v Hu Hv). replace (2 * N + 1)%nat with (N + N + 1)%nat by lia.
  assert (M := Qspace_mult d (N + N) 1 _ (fun _ => 1) H). unfold Qspace in M at 2. cbn [in_space] in M.
  assert (S1 : forall k, sum_nat (map spatial_dim (repeat (PN 1 k) d)) = d) by (intros k; clear; induction d; [reflexivity|]; unfold sum_nat in *; cbn in *; lia).
  assert (M1 : Qspace d 1 (fun _ => 1)).
  { unfold Qspace. cbn [in_space]. apply span_gen. exists (repeat (fun _ => 1) d). split.
    - clear. induction d; cbn [repeat map]; constructor; [cbn [snd in_space]; apply is_poly_const|easy].
    - intros xs Hxs. clear -Hxs. assert (LX : length xs = d) by (rewrite (EnumFacts.Forall2_length _ _ _ Hxs), map_length; apply repeat_length). clear Hxs.
      revert xs LX. induction d as [|d IH]; intros [|x xs] L; try discriminate; [reflexivity|]. unfold prod_app in *. cbn [repeat combine map fold_right fst snd] in *. injection L as L. rewrite <- (IH xs L). ring. }
  assert (M2 := Qspace_mult d (N + N) 1 _ _ H M1). clear -M2 S1. unfold Qspace in M2. cbn [in_space] in M2 |- *. rewrite S1 in M2 |- *.
  eapply (span_plus _ _ _ (fun x => 0)); [exact M2|now apply span_zero|]. intros x _. cbv beta. ring.
Qed.
(** In particular for nodal (Lagrange) functions: the off-diagonal entries vanish, the
    diagonal entries are the returned ones. *)
Theorem C62_lagrange eigh rj N d be ls : eigh_at eigh 0 0 N -> builtin be ->
  exists q0 q ws, legendre_gauss eigh rj N be true = Ok q0 /\ legendre_gauss_tp eigh rj N d be = Ok q
    /\ spectral_diag_nodal_mass_matrix (Some (repeat q0 d)) = Ok ws
    /\ ((forall i, (i < length (q_nodes q))%nat -> Qspace d N (ls i)) ->
        (forall i k, (i < length (q_nodes q))%nat -> (k < length (q_nodes q))%nat -> ls i (nth k (q_nodes q) []) = if (i =? k)%nat then 1 else 0) ->
        forall i j, (i < length (q_nodes q))%nat -> (j < length (q_nodes q))%nat ->
          is_int (box d) (fun x => ls i x * ls j x) (if (i =? j)%nat then nth i ws 0 else 0)).
Proof.
  intros HE HB. destruct (C62_gauss eigh rj N d be HE HB) as (q0 & q & ws & E0 & E & EW & LW & H). exists q0, q, ws.
  split; [easy|]. split; [easy|]. split; [easy|]. intros HQ HL i j Hi Hj. assert (K := H (ls i) (ls j) (HQ i Hi) (HQ j Hj)).
  replace (if (i =? j)%nat then nth i ws 0 else 0) with (diag_form ws (q_nodes q) (ls i) (ls j)); [exact K|].
  unfold diag_form. rewrite (rsum_single _ (length (q_nodes q)) i Hi).
  2:{ intros k Hk Nk. rewrite (HL i k) by easy. destruct (Nat.eqb_spec i k); [lia|ring]. }
  rewrite !HL by easy. rewrite Nat.eqb_refl, (Nat.eqb_sym j i). destruct (i =? j)%nat; ring.
Qed.
(** With Gauss-Lobatto points it is exact if one of the two functions has one degree less ... *)
Lemma lobatto_rule eigh rj N be : (1 <= N)%nat -> lobatto_eigh eigh 0 0 N -> builtin be ->
  exists q0, legendre_gauss_lobatto eigh rj N be true = Ok q0 /\ wf_quad q0 /\ q_dim q0 = 1%nat /\ (exists r, exact_to q0 = Ok (NFin r)) /\ integrates q0 (Simplex 1) (2 * N - 1).
Proof.
  intros HN HE HB. destruct (C38_legendre_rule N eigh rj be true HN HE HB) as (q0 & mid & E0 & Q1 & Q2 & _ & Q3 & Q4 & _ & X & D & _).
  exists q0. split; [exact E0|]. split.
  { split.
    - rewrite Q1, D. constructor; [reflexivity|]. apply Forall_app. split; [|constructor; [reflexivity|constructor]].
      apply Forall_forall. intros p Hp. destruct (Q2 p Hp) as (x & -> & _). reflexivity.
    - rewrite Q1, Q4. cbn [length]. rewrite app_length. cbn [length]. lia. }
  split; [easy|]. split; [eexists; exact X|]. intros phi Hp. destruct (C38_legendre_exact N eigh rj be true q0 phi HE HB E0 Hp) as (v & Hv & Hq).
  exists v. split; [now apply is_int_1|easy].
Qed.
Theorem C62_lobatto eigh rj N d be : (1 <= N)%nat -> lobatto_eigh eigh 0 0 N -> builtin be ->
  exists q0 q ws, legendre_gauss_lobatto eigh rj N be true = Ok q0 /\ legendre_gauss_lobatto_tp eigh rj N d be = Ok q
    /\ spectral_diag_nodal_mass_matrix (Some (repeat q0 d)) = Ok ws /\ length ws = length (q_nodes q)
    /\ forall u v, Qspace d N u -> Qspace d (N - 1) v -> is_int (box d) (fun x => u x * v x) (diag_form ws (q_nodes q) u v).
Proof.
  intros HN HE HB. destruct (lobatto_rule eigh rj N be HN HE HB) as (q0 & E0 & W & D & (r & X) & I).
  destruct (tp_repeat_defined q0 d _ W D X) as (q & E). exists q0, q, (q_weights q). split; [exact E0|].
  split; [unfold legendre_gauss_lobatto_tp; rewrite E0; exact E|]. split; [now apply spectral_weights|].
  destruct (tp_repeat_exact q0 q d _ W D I E) as [Wq EX]. split; [apply Wq|]. intros u v Hu Hv. rewrite <- rule_diag by easy. apply EX.
  assert (H := Qspace_mult d N (N - 1) u v Hu Hv). replace (2 * N - 1)%nat with (N + (N - 1))%nat by lia. exact H.
Qed.
(** ... but not for all pairs of functions of degree N (the docstring says "approximate"):
    for N = 1 and (1-x)/2 the diagonal form gives 1, the square has the integral 2/3. *)
Theorem C62_lobatto_inexact eigh rj be : builtin be -> exists q0 q ws, legendre_gauss_lobatto eigh rj 1 be true = Ok q0
  /\ legendre_gauss_lobatto_tp eigh rj 1 1 be = Ok q /\ spectral_diag_nodal_mass_matrix (Some [q0]) = Ok ws
  /\ Qspace 1 1 (fun x => (1 - nth 0 x 0) / 2)
  /\ diag_form ws (q_nodes q) (fun x => (1 - nth 0 x 0) / 2) (fun x => (1 - nth 0 x 0) / 2) = 1
  /\ is_int (box 1) (fun x => (1 - nth 0 x 0) / 2 * ((1 - nth 0 x 0) / 2)) (2 / 3).
Proof.
  intros HB. assert (HE : lobatto_eigh eigh 0 0 1) by (intros H; lia).
  destruct (C62_lobatto eigh rj 1 1 be ltac:(lia) HE HB) as (q0 & q & ws & E0 & E & EW & LW & H). exists q0, q, ws.
  split; [exact E0|]. split; [exact E|]. split; [exact EW|].
  set (u := fun x : list R => (1 - nth 0 x 0) / 2).
  assert (P1 : is_poly 1 1 u).
  { apply (is_poly_ext 1 1 (fun x => 1 / 2 + (-1 / 2) * nth 0 x 0)); [intros x _; unfold u; field|].
    apply is_poly_plus; [apply is_poly_const|apply is_poly_scal, is_poly_coord; lia]. }
  assert (G1 : forall n f, is_poly 1 n f -> Qspace 1 n f).
  { intros n f Hf. unfold Qspace. cbn [in_space]. apply span_gen. exists [f]. split; [constructor; [exact Hf|constructor]|].
    intros xs Hx. inversion Hx as [|x y l l' _ H2]; subst. inversion H2; subst. cbn [concat]. rewrite app_nil_r. unfold prod_app. cbn [combine map fold_right fst snd]. ring. }
  assert (IB : forall f v, is_RInt (fun t => f [t]) (-1) 1 v -> is_int (box 1) f v).
  { intros f v Hf. apply is_int_TP. cbn [repeat is_ints]. exists f. split; [intros p _; now rewrite app_nil_r|]. now apply is_int_1. }
  assert (Qu : Qspace 1 1 u) by now apply G1. split; [exact Qu|].
  assert (Q1 : Qspace 1 (1 - 1) (fun _ => 1)) by apply G1, is_poly_const.
  assert (I1 : is_int (box 1) (fun x => u x * 1) 1).
  { apply IB. unfold u. cbn [nth].
    replace 1 with ((1 / 2 - 1 * 1 / 4) - (-1 / 2 - -1 * -1 / 4)) at 2 by field.
    apply (@is_RInt_derive R_CompleteNormedModule (fun t => t / 2 - t * t / 4) (fun t => (1 - t) / 2 * 1)).
    - intros t _. auto_derive; [easy|field].
    - intros t _. apply continuity_pt_filterlim. reg. }
  split.
  - rewrite <- (is_int_unique _ _ _ _ (H u (fun _ => 1) Qu Q1) I1). unfold diag_form. apply rsum_ext. intros k Hk. f_equal.
    assert (ND : nth k (q_nodes q) [] = [-1] \/ nth k (q_nodes q) [] = [1]).
    { unfold legendre_gauss_lobatto_tp in E. rewrite E0 in E. cbn [bind repeat] in E.
      destruct (lobatto_rule eigh rj 1 be ltac:(lia) HE HB) as (q0' & E0' & W & _). assert (q0' = q0) as -> by congruence.
      destruct (tp_quad_inv [q0] q ltac:(now constructor) E) as (_ & NQ & _).
      assert (HI : In (nth k (q_nodes q) []) (q_nodes q)) by now apply nth_In. rewrite NQ in HI at 2. apply in_map_iff in HI. destruct HI as (idx & EI & HI).
      apply enumF_in in HI. cbn [map] in HI. inversion HI as [|i n l l' Hi Hl]; subst. inversion Hl; subst.
      rewrite <- EI. unfold pick. cbn [map combine fst snd concat]. rewrite app_nil_r.
      destruct (C38_legendre_rule 1 eigh rj be true ltac:(lia) HE HB) as (q1 & mid & E1 & N1 & _ & _ & LM & _). assert (q1 = q0) as -> by congruence.
      rewrite N1 in Hi |- *. destruct mid; [|discriminate]. cbn [app length] in Hi |- *. destruct i as [|[|i]]; [now left|now right|lia]. }
    destruct ND as [-> | ->]; unfold u; cbn [nth]; field.
  - apply IB. unfold u. cbn [nth].
    replace (2 / 3) with ((1 / 4 - 1 ^ 2 / 4 + 1 ^ 3 / 12) - (-1 / 4 - (-1) ^ 2 / 4 + (-1) ^ 3 / 12)) by field.
    apply (@is_RInt_derive R_CompleteNormedModule (fun t => t / 4 - t ^ 2 / 4 + t ^ 3 / 12) (fun t => (1 - t) / 2 * ((1 - t) / 2))).
    + intros t _. auto_derive; [easy|field].
    + intros t _. apply continuity_pt_filterlim. reg.
Qed.
(** Anything but a product of one-dimensional rules is refused. *)
Theorem C62_refused : spectral_diag_nodal_mass_matrix None = Err ValueError
  /\ forall qs, (exists q, In q qs /\ q_dim q <> 1%nat) -> spectral_diag_nodal_mass_matrix (Some qs) = Err ValueError.
Proof.
  split; [reflexivity|]. intros qs (q & Hq & N). unfold spectral_diag_nodal_mass_matrix.
  destruct (forallb (fun q => q_dim q =? 1)%nat qs) eqn:F; [|reflexivity]. rewrite forallb_forall in F. specialize (F q Hq). apply Nat.eqb_eq in F. easy.
Qed.

(** The hypotheses are met for every N (C37), and the polynomials of degree at most n of
    one variable are in the space for d = 1. *)
Example C62_example : exists eigh, eigh_at eigh 0 0 3 /\ builtin None /\ Qspace 2 1 (fun x => nth 0 x 0 * nth 1 x 0).
Proof.
  destruct (C37_decomposition_exists 0 0 ltac:(lra) ltac:(lra) ltac:(lra) 3) as (eigh & H & _). exists eigh. split; [exact H|]. split; [now left|].
  unfold Qspace. cbn [in_space repeat map spatial_dim]. apply span_gen. exists [fun x => nth 0 x 0; fun x => nth 0 x 0]. split.
  - constructor; [apply is_poly_coord; lia|]. constructor; [apply is_poly_coord; lia|constructor].
  - intros xs Hx. inversion Hx as [|x y l l' L1 H2]; subst. inversion H2 as [|x2 y2 l2 l2' L2 H3]; subst. inversion H3; subst.
    cbn [fst] in L1, L2. destruct x as [|x0 [|]]; try discriminate. destruct x2 as [|x1 [|]]; try discriminate. unfold prod_app. cbn. ring.
Qed.
Print Assumptions C62_gauss.
Print Assumptions C62_lagrange.
Print Assumptions C62_lobatto.
Print Assumptions C62_lobatto_inexact.
Print Assumptions C62_refused.
