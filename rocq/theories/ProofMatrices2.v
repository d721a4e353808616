(** * Differentiation, mass and quadrature matrices (C27-C29) *)
From Coquelicot Require Import Coquelicot.
From Coq Require Import List Arith Bool ZArith Reals Lra Lia.
From Verif Require Import Py PyToolsModel RSum IntFacts RField ModelLinAlg ProofLinAlg ModelShapes ModelModes ModelBasis ModelQuad
  ModelMatrices EnumFacts SpecPartial SpecSpan SpecGeometry SpecIntegral ProofNodeTuples ProofMonomial ProofMatrices.
Import ListNotations.
Local Open Scope R_scope.

(** ** Differentiation *)
Definition gfn (gs : list (list R -> res (list R))) (j : nat) : list R -> res (list R) :=
  nth j gs (fun _ => Err IndexError).

Lemma multi_vandermonde_ok junk gs xs d : gs <> [] -> xs <> [] ->
  (forall j x, (j < length gs)%nat -> In x xs -> exists c, gfn gs j x = Ok c /\ length c = d) ->
  exists Ms, multi_vandermonde junk gs xs = Ok Ms /\ length Ms = d
    /\ forall a M, nth_error Ms a = Some M -> nrows M = length xs /\ ncols M = length gs
       /\ forall i j c, (i < length xs)%nat -> (j < length gs)%nat -> gfn gs j (pt xs i) = Ok c ->
            ent M i j = nth a c 0.
Proof.
  intros Hg Hx H. unfold multi_vandermonde. destruct gs as [|g0 gs0]; [easy|]. set (gs := g0 :: gs0) in *.
  destruct (mapM_succeeds (fun f => mapM f xs) gs) as (vals & E).
  { intros g Hgin. destruct (In_nth gs g (fun _ => Err IndexError) Hgin) as (j & Hj & <-).
    apply mapM_succeeds. intros x Hxin. destruct (H j x Hj Hxin) as (c & Ec & _). exists c. exact Ec. }
  rewrite E. cbn [bind].
  assert (HV : length vals = length gs /\ forall j, (j < length gs)%nat -> mapM (gfn gs j) xs = Ok (nth j vals [])).
  { clear -E. generalize gs vals E. clear. intros gs. induction gs as [|g gs IH]; intros vals E.
    - injection E as <-. split; [easy|cbn; lia].
    - cbn [mapM] in E. destruct (mapM g xs) as [c|] eqn:Ec; [|discriminate]. cbn [bind] in E.
      destruct (mapM (fun f => mapM f xs) gs) as [cols'|] eqn:Ecols; [|discriminate]. injection E as <-.
      destruct (IH cols' eq_refl) as [L HH].
      split; [cbn; congruence|]. intros [|j] Hj; cbn [nth]; [exact Ec|]. apply HH; cbn in Hj; lia. }
  destruct HV as [LV HV].
  assert (HT : forall j, (j < length gs)%nat -> length (nth j vals []) = length xs
     /\ forall i, (i < length xs)%nat -> gfn gs j (pt xs i) = Ok (nth i (nth j vals []) [])).
  { intros j Hj. specialize (HV j Hj). revert HV. generalize (nth j vals []).
    generalize (gfn gs j). clear. intros g. induction xs as [|x xs IH]; intros vs E; cbn [mapM] in E.
    - injection E as <-. split; [easy|cbn; lia].
    - destruct (g x) as [v|] eqn:Ev; [|discriminate]. cbn [bind] in E.
      destruct (mapM g xs) as [vs'|]; [|discriminate]. injection E as <-.
      destruct (IH _ eq_refl) as [L HH]. split; [cbn; congruence|].
      intros [|i] Hi; [exact Ev|]. apply HH. cbn in Hi; lia. }
  assert (HN : forall v, In v vals -> n_components v = d).
  { intros v Hv. destruct (In_nth vals v [] Hv) as (j & Hj & <-). rewrite LV in Hj.
    destruct (HT j Hj) as [L HH]. destruct (nth j vals []) as [|t v'] eqn:Ev.
    - destruct xs; [easy|discriminate].
    - cbn [n_components]. destruct xs as [|x xs]; [easy|].
      specialize (HH 0%nat ltac:(cbn; lia)). cbn [nth] in HH.
      destruct (H j x Hj (or_introl eq_refl)) as (c & Ec & Lc). unfold pt in HH. cbn [nth] in HH. congruence. }
  assert (Hd : match vals with [] => 0%nat | v :: _ => n_components v end = d).
  { destruct vals as [|v vals']; [discriminate|]. apply HN. now left. }
  rewrite Hd.
  replace (existsb (fun v => (d <? n_components v)%nat) vals) with false.
  2:{ symmetry. apply not_true_is_false. intros Hex. apply existsb_exists in Hex. destruct Hex as (v & Hv & Hlt).
      rewrite (HN v Hv) in Hlt. apply Nat.ltb_lt in Hlt. lia. }
  eexists. split; [reflexivity|]. split; [now rewrite map_length, seq_length|].
  intros a M HM. rewrite nth_error_map in HM.
  destruct (nth_error (seq 0 d) a) as [a'|] eqn:Ea; [|discriminate]. injection HM as <-.
  assert (Ha : (a < d)%nat).
  { assert (nth_error (seq 0 d) a <> None) by congruence. apply nth_error_Some in H0. now rewrite seq_length in H0. }
  assert (a' = a).
  { rewrite (nth_error_nth' _ 0%nat) in Ea by (now rewrite seq_length). rewrite seq_nth in Ea by easy.
    injection Ea as <-. reflexivity. }
  subst a'. cbn [nrows ncols ent]. split; [easy|]. split; [easy|].
  intros i j c Hi Hj Ec. destruct (HT j Hj) as [_ HH].
  destruct (H j (pt xs i) Hj (pt_in _ _ Hi)) as (c' & Ec' & Lc'). rewrite HH in Ec, Ec' by easy.
  assert (E1 : nth i (nth j vals []) [] = c) by congruence. assert (E2 : nth i (nth j vals []) [] = c') by congruence.
  rewrite E1. apply nth_indep. rewrite <- E1, E2. lia.
Qed.

Lemma is_derive_rsum n (F : nat -> R -> R) (x : R) (l : nat -> R) :
  (forall k, (k < n)%nat -> is_derive (F k) x (l k)) -> is_derive (fun t => rsum (fun k => F k t) n) x (rsum l n).
Proof.
  induction n as [|n IH]; intros H; cbn [rsum].
  - apply is_derive_Reals. apply derivable_pt_lim_const.
  - apply (is_derive_plus (fun t => rsum (fun k => F k t) n) (F n)); [apply IH; auto|apply H; lia].
Qed.
Lemma has_partials_lin fs c x d (g : nat -> list R) : length x = d ->
  (forall j, (j < length fs)%nat -> has_partials (fn fs j) x (g j)) ->
  has_partials (lin fs c) x (map (fun a => rsum (fun j => c j * nth a (g j) 0) (length fs)) (seq 0 d)).
Proof.
  intros Hx H. split; [rewrite map_length, seq_length; congruence|]. intros a Ha.
  rewrite (nth_map_seq (fun a => rsum (fun j => c j * nth a (g j) 0) (length fs))) by lia.
  unfold lin. apply is_derive_rsum. intros j Hj. apply is_derive_scal. now apply H.
Qed.

Lemma mapM_nth {A B} (f : A -> res B) l r : mapM f l = Ok r ->
  forall k y, nth_error r k = Some y -> exists x, nth_error l k = Some x /\ f x = Ok y.
Proof.
  revert r. induction l as [|a l IH]; intros r E k y Hk; cbn [mapM] in E.
  - injection E as <-. now destruct k.
  - destruct (f a) as [b|] eqn:Eb; [|discriminate]. cbn [bind] in E.
    destruct (mapM f l) as [r'|]; [|discriminate]. injection E as <-.
    destruct k as [|k]; cbn [nth_error] in *; [injection Hk as <-; eauto|]. now apply (IH r').
Qed.

Lemma diff_matrices_core junk fs gs nodes from_opt d
  (from := match from_opt with None => nodes | Some f => f end) :
  fs <> [] -> length gs = length fs -> nodes <> [] ->
  (forall j x, (j < length fs)%nat -> In x nodes -> exists c, gfn gs j x = Ok c /\ length c = d) ->
  defined_on fs from -> unisolvent fs from ->
  exists Ds, differentiation_matrices junk fs gs nodes from_opt = Ok Ds /\ length Ds = d
    /\ forall a D, nth_error Ds a = Some D -> nrows D = length nodes /\ ncols D = length from
       /\ forall i j c, (i < length nodes)%nat -> (j < length fs)%nat -> gfn gs j (pt nodes i) = Ok c ->
            rsum (fun k => ent D i k * V fs from k j) (length from) = nth a c 0.
Proof.
  intros Hf Hl Hn Hg HD [HL HU]. unfold differentiation_matrices. fold from.
  rewrite HL, Nat.eqb_refl. cbn [negb].
  destruct (vandermonde_succeeds _ _ HD) as (A & EA). rewrite EA. cbn [bind].
  destruct (vandermonde_inv _ _ _ EA) as (RA & CA & HA & _).
  destruct (multi_vandermonde_ok junk gs nodes d) as (Ms & EM & LM & HM).
  { intros ->. destruct fs; [easy|discriminate]. }
  { easy. }
  { rewrite Hl. exact Hg. }
  rewrite EM. cbn [bind].
  destruct (mapM_succeeds (fun gv => let* x := np_solve (mT A) (mT gv) in Ok (mT x)) Ms) as (Ds & ED).
  { intros M HMin. destruct (In_nth_error _ _ HMin) as (a & Ea). destruct (HM a M Ea) as (R1 & C1 & _).
    destruct (np_solve_succeeds (A := mT A) (B := mT M)) as (X & EX); cbn [mT nrows ncols ent].
    - congruence.
    - congruence.
    - rewrite CA, HL, <- RA. apply nonsing_tr. now apply (nonsing_V _ _ _ EA HL).
    - rewrite EX. cbn [bind]. eauto. }
  exists Ds. split; [exact ED|]. split; [rewrite <- LM; now apply mapM_length in ED|].
  intros a D HaD. destruct (mapM_nth _ _ _ ED a D HaD) as (M & Ea & EX).
  destruct (HM a M Ea) as (R1 & C1 & HE).
  destruct (np_solve (mT A) (mT M)) as [X|] eqn:ES; [|discriminate]. cbn [bind] in EX. injection EX as <-.
  destruct (np_solve_ok ES) as (S1 & S2 & S3 & S4 & S5 & S6). cbn [mT nrows ncols ent] in *.
  split; [congruence|]. split; [congruence|].
  intros i j c Hi Hj Ec. rewrite <- (HE i j c) by congruence. rewrite <- S6 by congruence.
  rewrite CA, HL. apply rsum_ext. intros k Hk. rewrite HA by lia. ring.
Qed.

(** ** Mass matrices *)
Lemma is_int_zero s : is_int s (fun _ => 0) 0.
Proof.
  induction s as [d|k n bs IH] using shape_ind'.
  - cbn [is_int]. generalize 2 as t. induction d as [|d IH]; intros t; cbn [is_int_simplex]; [easy|].
    exists (fun _ => 0). split; [intros; apply IH|].
    eapply isR_eq; [apply isR_const|ring].
  - apply is_int_TP. induction IH as [|b bs Hb _ IHs]; cbn [is_ints]; [easy|]. exists (fun _ => 0). split; auto.
Qed.
Lemma is_int_rsum s n (F : nat -> list R -> R) (l : nat -> R) :
  (forall k, (k < n)%nat -> is_int s (F k) (l k)) -> is_int s (fun x => rsum (fun k => F k x) n) (rsum l n).
Proof.
  induction n as [|n IH]; intros H; cbn [rsum].
  - apply is_int_zero.
  - apply (is_int_plus s (fun x => rsum (fun k => F k x) n) (F n)); [apply IH; auto|apply H; lia].
Qed.

Lemma inverse_mass_seq fs nodes A : vandermonde fs nodes = Ok A ->
  inverse_mass_matrix (inr fs) nodes = Ok (mkMat (length nodes) (length nodes)
    (fun i j => rsum (fun k => ent A i k * ent A j k) (length fs))).
Proof.
  intros E. destruct (vandermonde_inv _ _ _ E) as (R1 & C1 & _). unfold inverse_mass_matrix. cbn [bind]. rewrite E.
  cbn [bind]. unfold mdot. cbn [mT nrows ncols ent]. rewrite Nat.eqb_refl, R1, C1. reflexivity.
Qed.

(** facts about a successful mass matrix *)
Lemma mass_seq_ok fs nodes M : mass_matrix (inr fs) nodes = Ok M ->
  exists W, inverse_mass_matrix (inr fs) nodes = Ok W
  /\ nrows W = length nodes /\ ncols W = length nodes /\ nrows M = length nodes /\ ncols M = length nodes
  /\ (forall i j, (i < length nodes)%nat -> (j < length nodes)%nat ->
        ent W i j = rsum (fun k => V fs nodes i k * V fs nodes j k) (length fs))
  /\ (forall i j, (i < length nodes)%nat -> (j < length nodes)%nat ->
        rsum (fun k => ent W i k * ent M k j) (length nodes) = delta i j)
  /\ (forall i j, (i < length nodes)%nat -> (j < length nodes)%nat ->
        rsum (fun k => ent M i k * ent W k j) (length nodes) = delta i j)
  /\ defined_on fs nodes.
Proof.
  unfold mass_matrix. intros H.
  destruct (vandermonde fs nodes) as [A|] eqn:E.
  2:{ unfold inverse_mass_matrix in H. cbn [bind] in H. rewrite E in H. discriminate. }
  rewrite (inverse_mass_seq _ _ _ E) in *. cbn [bind] in H.
  destruct (vandermonde_inv _ _ _ E) as (R1 & C1 & HA & HD).
  destruct (np_inv_ok H) as (I1 & I2 & I3 & I4 & I5 & I6). cbn [nrows ncols ent] in *.
  eexists. split; [reflexivity|]. cbn [nrows ncols ent]. split; [easy|]. split; [easy|]. split; [easy|]. split; [easy|].
  split; [|split; [exact I5|split; [exact I6|easy]]].
  intros i j Hi Hj. apply rsum_ext. intros k Hk. rewrite !HA by easy. reflexivity.
Qed.
Lemma mass_seq_succeeds fs nodes : defined_on fs nodes -> unisolvent fs nodes ->
  exists M, mass_matrix (inr fs) nodes = Ok M.
Proof.
  intros HD [HL HU]. destruct (vandermonde_succeeds _ _ HD) as (A & E).
  unfold mass_matrix. rewrite (inverse_mass_seq _ _ _ E). cbn [bind].
  destruct (vandermonde_inv _ _ _ E) as (R1 & C1 & HA & _).
  apply np_inv_succeeds; cbn [nrows ncols ent]; [easy|].
  pose proof (proj2 (nonsing_V _ _ _ E HL) HU) as N. rewrite R1 in N.
  intros c Hc.
  assert (N' : nonsing (length nodes) (fun i j => ent A j i)) by (now apply nonsing_tr in N).
  apply N'. apply N. intros i Hi. rewrite <- (Hc i Hi).
  rewrite (rsum_assoc (fun i k => ent A i k) (fun k j => ent A j k) c i (length nodes) (length nodes)).
  now rewrite HL.
Qed.

(** V^T M V = I *)
Lemma VMV fs nodes (M : nat -> nat -> R) n : length fs = n -> length nodes = n ->
  (forall i j, (i < n)%nat -> (j < n)%nat ->
     rsum (fun k => M i k * rsum (fun l => V fs nodes k l * V fs nodes j l) n) n = delta i j) ->
  forall a b, (a < n)%nat -> (b < n)%nat ->
    rsum (fun i => V fs nodes i a * rsum (fun j => M i j * V fs nodes j b) n) n = delta a b.
Proof.
  intros L1 L2 H.
  apply (@inverse_swap n (prodf n M (V fs nodes)) (fun a i => V fs nodes i a)).
  intros i j Hi Hj. etransitivity; [|exact (H i j Hi Hj)]. unfold prodf. symmetry.
  apply (rsum_assoc M (V fs nodes) (fun l => V fs nodes j l) i n n).
Qed.


(** bilinear pairings of linear combinations *)
Lemma rsum_double (X : nat -> nat -> R) (c d : nat -> R) (F G : nat -> nat -> R) n m p q :
  rsum (fun i => rsum (fun a => F i a * c a) p * rsum (fun j => X i j * rsum (fun b => G j b * d b) q) m) n
  = rsum (fun a => rsum (fun b => c a * d b * rsum (fun i => F i a * rsum (fun j => X i j * G j b) m) n) q) p.
Proof.
  transitivity (rsum (fun i => rsum (fun a => rsum (fun b =>
     c a * d b * (F i a * rsum (fun j => X i j * G j b) m)) q) p) n).
  { apply rsum_ext. intros i _. rewrite <- rsum_scal_r. apply rsum_ext. intros a _.
    rewrite (rsum_assoc X G d i m q).
    rewrite <- rsum_scal. apply rsum_ext. intros b _. ring. }
  rewrite rsum_swap. apply rsum_ext. intros a _. rewrite rsum_swap. apply rsum_ext. intros b _. now rewrite rsum_scal.
Qed.

Definition combo (phis : list (list R -> R)) (c : nat -> R) (x : list R) : R :=
  rsum (fun j => c j * nth j phis (fun _ => 0) x) (length phis).
Definition orthonormal_on (s : shape) (phis : list (list R -> R)) : Prop :=
  forall k l phi psi, nth_error phis k = Some phi -> nth_error phis l = Some psi ->
    is_int s (fun x => phi x * psi x) (delta k l).

Lemma int_combo s phis c d : orthonormal_on s phis ->
  is_int s (fun x => combo phis c x * combo phis d x) (rsum (fun a => c a * d a) (length phis)).
Proof.
  intros H.
  assert (E : rsum (fun a => c a * d a) (length phis)
     = rsum (fun a => rsum (fun b => (c a * d b) * delta a b) (length phis)) (length phis)).
  { apply rsum_ext. intros a Ha. symmetry. rewrite (rsum_single _ _ a Ha).
    - unfold delta. rewrite Nat.eqb_refl. ring.
    - intros b Hb Hne. unfold delta. destruct (Nat.eqb_spec a b); [congruence|ring]. }
  rewrite E.
  eapply is_int_ext with (f := fun x => rsum (fun a => rsum (fun b =>
     (c a * d b) * (nth a phis (fun _ => 0) x * nth b phis (fun _ => 0) x)) (length phis)) (length phis)).
  - intros x _. unfold combo. rewrite <- rsum_scal_r. apply rsum_ext. intros a _.
    rewrite <- rsum_scal. apply rsum_ext. intros b _. ring.
  - apply is_int_rsum. intros a Ha. apply is_int_rsum. intros b Hb. apply is_int_scal.
    apply (H a b); apply nth_error_nth'; easy.
Qed.

(** ** Quadrature operators *)
Lemma fold_dot_rsum w v : length w = length v ->
  dotR w v = rsum (fun k => nth k w 0 * nth k v 0) (length v).
Proof.
  unfold dotR. revert v. induction w as [|a w IH]; intros [|b v] H; try discriminate; [reflexivity|].
  cbn [combine map fold_right fst snd length]. rewrite rsum_shift. cbn [nth]. rewrite IH by (cbn in H; lia).
  reflexivity.
Qed.
Lemma q_call_rsum q (g : list R -> R) : length (q_weights q) = length (q_nodes q) ->
  q_call q (fun x => Ok (g x)) = Ok (rsum (fun k => nth k (q_weights q) 0 * g (pt (q_nodes q) k)) (length (q_nodes q))).
Proof.
  intros L. unfold q_call.
  assert (E : mapM (fun x => Ok (g x)) (q_nodes q) = Ok (map g (q_nodes q))).
  { generalize (q_nodes q). clear. induction l as [|x l IH]; [reflexivity|]. cbn [mapM bind]. now rewrite IH. }
  rewrite E. cbn [bind]. rewrite map_length, L, Nat.eqb_refl. f_equal.
  rewrite fold_dot_rsum by (now rewrite map_length). rewrite map_length. apply rsum_ext. intros k Hk.
  f_equal. unfold pt. rewrite (nth_indep _ 0 (g [])) by (now rewrite map_length). apply map_nth.
Qed.

Lemma test_matrix_ok q tests interp nodes mp A
  (nds := match nodes with Some n => n | None => q_nodes q end) :
  nodal_quadrature_test_matrix q tests interp nodes mp = Ok A ->
  exists tnodes, match mp with Some m => mapM m (q_nodes q) | None => Ok (q_nodes q) end = Ok tnodes
  /\ length tnodes = length (q_nodes q) /\ length (q_weights q) = length (q_nodes q)
  /\ length interp = length nds /\ length tests = length interp
  /\ defined_on interp nds /\ defined_on tests tnodes
  /\ nrows A = length nds /\ ncols A = length (q_nodes q)
  /\ forall a k, (a < length tests)%nat -> (k < length (q_nodes q))%nat ->
       rsum (fun i => V interp nds i a * ent A i k) (length nds) = V tests tnodes k a * nth k (q_weights q) 0.
Proof.
  unfold nodal_quadrature_test_matrix. intros H.
  assert (H' : (if negb (length interp =? length nds)%nat then Err ValueError
    else let* vdm := vandermonde interp nds in
      let* test_nodes := match mp with Some m => mapM m (q_nodes q) | None => Ok (q_nodes q) end in
      let* tv := vandermonde tests test_nodes in
      let* modal_mat := mscale_cols (mT tv) (q_weights q) in
      np_solve (mT vdm) modal_mat) = Ok A).
  { unfold nds. destruct nodes; [exact H|]. destruct (q_flat q); [discriminate|exact H]. }
  clear H. destruct (Nat.eqb_spec (length interp) (length nds)) as [L|]; [|discriminate]. cbn [negb] in H'.
  destruct (vandermonde interp nds) as [B|] eqn:EB; [|discriminate]. cbn [bind] in H'.
  destruct (match mp with Some m => mapM m (q_nodes q) | None => Ok (q_nodes q) end) as [tn|] eqn:ET; [|discriminate].
  cbn [bind] in H'. destruct (vandermonde tests tn) as [T|] eqn:EV; [|discriminate]. cbn [bind] in H'.
  destruct (vandermonde_inv _ _ _ EB) as (RB & CB & HB & DB).
  destruct (vandermonde_inv _ _ _ EV) as (RT & CT & HT & DT).
  assert (LT : length tn = length (q_nodes q)).
  { destruct mp; [now apply mapM_length in ET|congruence]. }
  unfold mscale_cols in H'. cbn [mT nrows ncols ent] in H'.
  destruct (Nat.eqb_spec (nrows T) (length (q_weights q))) as [LW|]; [|discriminate]. cbn [bind] in H'.
  destruct (np_solve_ok H') as (S1 & S2 & S3 & S4 & S5 & S6). cbn [mT nrows ncols ent] in *.
  exists tn. split; [easy|]. split; [easy|]. split; [congruence|]. split; [easy|]. split; [congruence|].
  split; [easy|]. split; [easy|]. split; [congruence|]. split; [congruence|].
  intros a k Ha Hk. rewrite <- HT by congruence. rewrite <- (S6 a k) by congruence.
  rewrite CB, L. apply rsum_ext. intros i Hi. rewrite HB by (try lia; congruence). reflexivity.
Qed.

Lemma bilinear_ok q tests trials itest itrial inn outn mp A
  (out := match outn with Some n => n | None => inn end) :
  nodal_quadrature_bilinear_form_matrix q tests trials itest itrial inn outn mp = Ok A ->
  exists tnodes, match mp with Some m => mapM m (q_nodes q) | None => Ok (q_nodes q) end = Ok tnodes
  /\ length tnodes = length (q_nodes q) /\ length (q_weights q) = length (q_nodes q)
  /\ length itest = length out /\ length itrial = length inn
  /\ length tests = length itest /\ length trials = length itrial
  /\ nrows A = length out /\ ncols A = length inn
  /\ forall a b, (a < length tests)%nat -> (b < length trials)%nat ->
       rsum (fun i => V itest out i a * rsum (fun j => ent A i j * V itrial inn j b) (length inn)) (length out)
       = rsum (fun k => V tests tnodes k a * V trials (q_nodes q) k b * nth k (q_weights q) 0) (length (q_nodes q)).
Proof.
  unfold nodal_quadrature_bilinear_form_matrix. fold out. intros H.
  destruct (Nat.eqb_spec (length itest) (length out)) as [L1|]; [|discriminate]. cbn [negb] in H.
  destruct (Nat.eqb_spec (length itrial) (length inn)) as [L2|]; [|discriminate]. cbn [negb] in H.
  destruct (match mp with Some m => mapM m (q_nodes q) | None => Ok (q_nodes q) end) as [tn|] eqn:ET; [|discriminate].
  cbn [bind] in H. destruct (vandermonde tests tn) as [T|] eqn:EV; [|discriminate]. cbn [bind] in H.
  destruct (vandermonde trials (q_nodes q)) as [U|] eqn:EU; [|discriminate]. cbn [bind] in H.
  unfold einsum3 in H. destruct (Nat.eqb_spec (nrows T) (nrows U)) as [L3|]; [|discriminate]. cbn [andb] in H.
  destruct (Nat.eqb_spec (nrows T) (length (q_weights q))) as [L4|]; [|discriminate]. cbn [bind] in H.
  destruct (vandermonde itrial inn) as [VI|] eqn:EI; [|discriminate]. cbn [bind] in H.
  destruct (vandermonde itest out) as [VO|] eqn:EO; [|discriminate]. cbn [bind] in H.
  destruct (np_inv VI) as [P|] eqn:EP; [|discriminate]. cbn [bind] in H.
  unfold mdot in H. cbn [nrows ncols ent] in H.
  destruct (Nat.eqb_spec (ncols U) (nrows P)) as [L5|]; [|discriminate]. cbn [bind] in H.
  destruct (vandermonde_inv _ _ _ EV) as (RT & CT & HT & DT).
  destruct (vandermonde_inv _ _ _ EU) as (RU & CU & HU & DU).
  destruct (vandermonde_inv _ _ _ EI) as (RI & CI & HI & DI).
  destruct (vandermonde_inv _ _ _ EO) as (RO & CO & HO & DO).
  destruct (np_inv_ok EP) as (I1 & I2 & I3 & I4 & I5 & I6).
  destruct (np_solve_ok H) as (S1 & S2 & S3 & S4 & S5 & S6). cbn [mT nrows ncols ent] in *.
  assert (LT : length tn = length (q_nodes q)) by (destruct mp; [now apply mapM_length in ET|congruence]).
  exists tn. split; [easy|]. split; [easy|]. split; [congruence|]. split; [easy|]. split; [easy|].
  split; [congruence|]. split; [congruence|]. split; [congruence|]. split; [congruence|].
  intros a b Ha Hb.
  rewrite (rsum_assoc (fun a i => V itest out i a) (fun i j => ent A i j) (fun j => V itrial inn j b) a (length out) (length inn)).
  transitivity (rsum (fun j => rsum (fun k =>
      rsum (fun k0 => ent T k0 a * ent U k0 k * nth k0 (q_weights q) 0) (nrows T) * ent P k j) (ncols U) * ent VI j b)
      (length inn)).
  { apply rsum_ext. intros j Hj. rewrite HI by (congruence). f_equal. rewrite <- (S6 a j) by congruence.
    rewrite CO, L1. apply rsum_ext. intros i Hi. rewrite HO by (congruence). reflexivity. }
  rewrite <- (rsum_assoc (fun a k => rsum (fun k0 => ent T k0 a * ent U k0 k * nth k0 (q_weights q) 0) (nrows T))
               (fun k j => ent P k j) (fun j => ent VI j b) a (ncols U) (length inn)).
  rewrite (rsum_single _ (ncols U) b); [|congruence|].
  2:{ intros j Hj Hne. rewrite <- RI, I6 by congruence. destruct (Nat.eqb_spec j b); [congruence|]. apply Rmult_0_r. }
  rewrite <- RI, I6 by congruence. rewrite Nat.eqb_refl, Rmult_1_r, RT, LT.
  apply rsum_ext. intros k Hk. rewrite HT, HU by congruence. reflexivity.
Qed.
