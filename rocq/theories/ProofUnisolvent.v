(** * Unisolvence of lattice nodes for polynomial spaces *)
From Coquelicot Require Import Coquelicot.
From Coq Require Import List Arith Bool ZArith Reals Lra Lia.
From Verif Require Import Py PyToolsModel RSum RField ModelLinAlg ProofLinAlg ModelNd ModelShapes ModelSpaces ModelNodes ModelModes ModelBasis ModelQuad
  ModelMatrices EnumFacts SpecIndex SpecGeometry SpecIntegral SpecPoly SpecPartial SpecSpan ProofNodeTuples ProofTPCall ProofTPNodes ProofMonomial ProofTPGrad ProofBasisDeriv
  ProofJacobi ProofJacobi2 ProofPKDO ProofPKDOOrtho ProofTPOrtho ProofSpaces ProofBasisIndex ProofEquispaced ProofQuad ProofMatrices ProofMatrices2 ProofDiffPerm ProofMatrices3 ProofExchange ProofGM.
Import ListNotations.
Local Open Scope R_scope.

(** ** The Newton polynomials of a lattice *)
Definition newton1 (g : nat -> R) (a : nat) (x : R) : R := fold_right Rmult 1 (map (fun k => x - g k) (seq 0 a)).
Fixpoint newtonp (g : nat -> R) (al : list nat) (x : list R) : R :=
  match al, x with
  | a :: al', t :: x' => newton1 g a t * newtonp g al' x'
  | _, _ => 1
  end.
Lemma newton1_zero g n a t : (forall i j, (i <= n)%nat -> (j <= n)%nat -> g i = g j -> i = j) -> (t <= n)%nat -> (a <= n)%nat ->
  newton1 g a (g t) = 0 <-> (t < a)%nat.
Proof.
  intros Hg Ht Ha. unfold newton1.
  assert (E : forall l, fold_right Rmult 1 l = 0 <-> In 0 l).
  { induction l as [|x l IH]; cbn [fold_right In]; [split; [lra|easy]|]. rewrite <- IH. split.
    - intros H. apply Rmult_integral in H. destruct H; auto.
    - intros [->| ->]; ring. }
  rewrite E, in_map_iff. split.
  - intros (k & Hk & Hin). apply in_seq in Hin. assert (g t = g k) as H by lra. apply Hg in H; lia.
  - intros H. exists t. split; [ring|]. apply in_seq. lia.
Qed.
Lemma newton1_poly g d i a : (i < d)%nat -> is_poly d a (fun x => newton1 g a (nth i x 0)).
Proof.
  intros Hi. unfold newton1. assert (H : forall l, is_poly d (length l) (fun x => fold_right Rmult 1 (map (fun k => nth i x 0 - g k) l))).
  { induction l as [|k l IH]; cbn [map fold_right length]; [apply is_poly_const|].
    apply (is_poly_mult d 1 (length l)); [|exact IH].
    apply (is_poly_ext d 1 (fun x => nth i x 0 + - g k)); [intros; ring|]. apply is_poly_plus; [now apply is_poly_coord|apply is_poly_const]. }
  specialize (H (seq 0 a)). rewrite seq_length in H. exact H.
Qed.
Lemma newtonp_poly g : forall al d, length al = d -> is_poly d (total al) (newtonp g al).
Proof.
  induction al as [|a al IH]; intros d Hd.
  - apply (is_poly_const d 0 1).
  - destruct d as [|d]; [discriminate|]. cbn in Hd. specialize (IH d ltac:(lia)).
    change (total (a :: al)) with (a + total al)%nat.
    apply (is_poly_ext (S d) _ (fun x => newton1 g a (nth 0 x 0) * newtonp g al (skipn 1 x))).
    + intros [|t x] Hx; [discriminate|]. reflexivity.
    + apply is_poly_mult; [apply newton1_poly; lia|]. change (S d) with (1 + d)%nat. now apply is_poly_last.
Qed.
Definition inj_upto (g : nat -> R) (n : nat) : Prop := forall i j, (i <= n)%nat -> (j <= n)%nat -> g i = g j -> i = j.
Lemma newtonp_zero g n : inj_upto g n -> forall al t, length al = length t -> (total al <= n)%nat -> (total t <= n)%nat ->
  newtonp g al (map g t) <> 0 -> Forall2 le al t.
Proof.
  intros Hg. induction al as [|a al IH]; intros [|u t] L Ha Ht H; try discriminate; constructor.
  - destruct (Nat.le_gt_cases a u) as [X|X]; [easy|]. exfalso. apply H. cbn [map newtonp].
    cbn in Ha, Ht. rewrite (proj2 (newton1_zero g n a u Hg ltac:(lia) ltac:(lia)) X). ring.
  - cbn in L, Ha, Ht. apply IH; try (unfold total; lia). intros X. apply H. cbn [map newtonp]. rewrite X. ring.
Qed.
Lemma newtonp_self g n : inj_upto g n -> forall al, (total al <= n)%nat -> newtonp g al (map g al) <> 0.
Proof.
  intros Hg. induction al as [|a al IH]; intros Ha; cbn [map newtonp]; [lra|]. cbn in Ha.
  apply Rmult_integral_contrapositive. split; [|apply IH; unfold total; lia].
  intros X. apply (newton1_zero g n a a Hg) in X; lia.
Qed.
Lemma le_total_eq al t : Forall2 le al t -> (total t <= total al)%nat -> al = t.
Proof.
  intros H. assert (G : forall al t, Forall2 le al t -> (total al <= total t)%nat).
  { induction 1; cbn; unfold total in *; lia. }
  induction H as [|a u al t H1 H2 IH]; intros HT; [reflexivity|]. cbn in HT. pose proof (G _ _ H2) as G2. unfold total in *.
  f_equal; [lia|]. apply IH. lia.
Qed.

(** ** A functional that vanishes on the monomials vanishes on all polynomials *)
Lemma functional_poly d n (xs : list (list R)) (w : nat -> R) : (forall x, In x xs -> length x = d) ->
  (forall e, In e (gnitsam n d) -> rsum (fun i => w i * monoval e (pt xs i)) (length xs) = 0) ->
  forall f, is_poly d n f -> rsum (fun i => w i * f (pt xs i)) (length xs) = 0.
Proof.
  intros Hx H f (ts & Fts & Ef).
  rewrite (rsum_ext _ (fun i => w i * polyval ts (pt xs i))).
  2:{ intros i Hi. rewrite Ef; [reflexivity|]. apply Hx. now apply pt_in. }
  clear Ef f. induction Fts as [|[c e] ts [Le Te] Fts IH].
  - apply rsum_0. intros. unfold polyval. cbn. ring.
  - rewrite (rsum_ext _ (fun i => c * (w i * monoval e (pt xs i)) + w i * polyval ts (pt xs i))).
    2:{ intros i _. unfold polyval. cbn [fold_right fst snd]. ring. }
    rewrite rsum_plus, rsum_scal, IH, H; [ring|]. apply gnitsam_in. split; assumption.
Qed.

Section Lattice.
  Context (g : nat -> R) (d n : nat) (Hg : inj_upto g n).
  Let ts := gnitsam n d.
  Let xs := map (map g) ts.
  Lemma lattice_len : forall x, In x xs -> length x = d.
  Proof. intros x Hx. apply in_map_iff in Hx. destruct Hx as (t & <- & Ht). rewrite map_length. now apply gnitsam_in in Ht. Qed.
  Lemma lattice_pt i : (i < length ts)%nat -> pt xs i = map g (nth i ts []).
  Proof. intros Hi. unfold pt, xs. change (@nil R) with (map g []) at 1. now rewrite map_nth. Qed.
  Lemma lattice_rows w : (forall e, In e ts -> rsum (fun i => w i * monoval e (pt xs i)) (length xs) = 0) ->
    forall i, (i < length ts)%nat -> w i = 0.
  Proof.
    intros H. pose proof (functional_poly d n xs w lattice_len H) as HF.
    assert (T : forall i, (i < length ts)%nat -> length (nth i ts []) = d /\ (total (nth i ts []) <= n)%nat).
    { intros i Hi. assert (Hin : In (nth i ts []) ts) by now apply nth_In. now apply gnitsam_in in Hin. }
    enough (G : forall k i, (i < length ts)%nat -> (n - total (nth i ts []) < k)%nat -> w i = 0).
    { intros i Hi. apply (G (S (n - total (nth i ts []))) i Hi). lia. }
    induction k as [|k IH]; intros i Hi Hk; [lia|]. destruct (T i Hi) as [L1 T1].
    set (al := nth i ts []) in *.
    specialize (HF (newtonp g al)). rewrite (rsum_single _ _ i) in HF.
    - unfold xs in HF. fold xs in HF. rewrite lattice_pt in HF by easy. fold al in HF.
      specialize (HF ltac:(apply (is_poly_weaken d (total al)); [easy|now apply newtonp_poly])).
      apply Rmult_integral in HF. destruct HF as [HF|HF]; [easy|]. exfalso. now apply (newtonp_self g n Hg al T1).
    - unfold xs. now rewrite map_length.
    - intros j Hj Hne. unfold xs in Hj. rewrite map_length in Hj. rewrite lattice_pt by easy. destruct (T j Hj) as [L2 T2].
      destruct (Nat.le_gt_cases (total (nth j ts [])) (total al)) as [X|X].
      + destruct (Req_dec (newtonp g al (map g (nth j ts []))) 0) as [->|N]; [ring|]. exfalso.
        apply (newtonp_zero g n Hg) in N; try lia. apply le_total_eq in N; [|easy]. apply Hne.
        apply (proj1 (NoDup_nth ts []) (gnitsam_NoDup d n)); auto.
      + rewrite IH; [ring|easy|lia].
  Qed.
  Lemma lattice_fn e j : (j < length ts)%nat -> length e = d -> fn (map (monomial Rops) ts) j e = monoval (nth j ts []) e.
  Proof.
    intros Hj He. unfold fn, valR. rewrite (nth_indep _ (fun _ => Err IndexError) (monomial Rops [])) by (now rewrite map_length).
    rewrite map_nth, monomial_val; [reflexivity|]. assert (Hin : In (nth j ts []) ts) by (now apply nth_In). apply gnitsam_in in Hin. lia.
  Qed.
  Lemma lattice_unisolvent : unisolvent (map (monomial Rops) ts) xs.
  Proof.
    assert (L : length (map (monomial Rops) ts) = length xs) by (unfold xs; now rewrite !map_length).
    split; [exact L|]. apply independent_inj. rewrite L. change (nonsing (length xs) (V (map (monomial Rops) ts) xs)).
    apply nonsing_tr. intros w H.
    assert (Lx : length xs = length ts) by (unfold xs; now rewrite map_length).
    cut (forall i, (i < length ts)%nat -> w i = 0).
    { intros X i Hi. apply X. unfold lt in *. lia. }
    apply lattice_rows. intros e He. apply (In_nth ts e []) in He. destruct He as (j & Hj & <-).
    assert (Hj' : (j < length xs)%nat) by lia. specialize (H j Hj'). refine (eq_trans _ H). apply rsum_ext. intros i Hi.
    unfold V. rewrite lattice_fn; [apply Rmult_comm|easy|]. apply lattice_len. now apply pt_in.
  Qed.
  Lemma lattice_defined : defined_on (map (monomial Rops) ts) xs.
  Proof.
    intros f x Hf Hx. apply in_map_iff in Hf. destruct Hf as (e & <- & He). rewrite monomial_val; [eauto|].
    apply lattice_len in Hx. apply gnitsam_in in He. lia.
  Qed.
End Lattice.

(** Polynomials as combinations of the monomials of the basis. *)
Lemma poly_combination d n f : is_poly d n f ->
  exists c, forall x, length x = d -> f x = lin (map (monomial Rops) (gnitsam n d)) c x.
Proof.
  intros (ts & Fts & Ef). enough (exists c, forall x, length x = d -> polyval ts x = lin (map (monomial Rops) (gnitsam n d)) c x) as (c & H).
  { exists c. intros x Hx. rewrite Ef by easy. now apply H. }
  clear Ef f. induction Fts as [|[a e] ts [Le Te] Fts (c & IH)].
  - exists (fun _ => 0). intros x Hx. rewrite mono_lin by easy. unfold polyval. cbn [fold_right].
    symmetry. apply rsum_0. intros. ring.
  - assert (He : In e (gnitsam n d)) by (apply gnitsam_in; split; assumption).
    apply (In_nth _ _ []) in He. destruct He as (j & Hj & Ej).
    exists (fun k => a * delta j k + c k). intros x Hx. unfold polyval. cbn [fold_right fst snd]. fold (polyval ts x). rewrite IH by easy.
    rewrite !mono_lin by easy.
    rewrite (rsum_ext (fun k => (a * delta j k + c k) * _) (fun k => a * (delta j k * monoval (nth k (gnitsam n d) []) x) + c k * monoval (nth k (gnitsam n d) []) x))
      by (intros; ring).
    rewrite rsum_plus, rsum_scal, (rsum_delta (fun k => monoval (nth k (gnitsam n d) []) x)) by easy. now rewrite Ej.
Qed.
Lemma poly_zero g d n f : inj_upto g n -> is_poly d n f -> (forall x, In x (map (map g) (gnitsam n d)) -> f x = 0) ->
  forall x, length x = d -> f x = 0.
Proof.
  intros Hg Hf Hz. destruct (poly_combination d n f Hf) as (c & Hc).
  destruct (lattice_unisolvent g d n Hg) as [_ HI].
  assert (Z : forall k, (k < length (map (monomial Rops) (gnitsam n d)))%nat -> c k = 0).
  { apply HI. intros x Hx. rewrite <- Hc; [now apply Hz|]. now apply (lattice_len g d n). }
  intros x Hx. rewrite Hc by easy. unfold lin. apply rsum_0. intros k Hk. rewrite Z by easy. ring.
Qed.

(** ** Tensor products *)
Lemma map_nth_seq {A} (l : list A) d : map (fun j => nth j l d) (seq 0 (length l)) = l.
Proof.
  apply (nth_ext _ _ d d); [now rewrite map_length, seq_length|]. intros i Hi. rewrite map_length, seq_length in Hi.
  now rewrite nth_map_seq.
Qed.
Inductive factors : list nat -> list (list (bfun (T:=R))) -> list (list (list R)) -> Prop :=
| fa_nil : factors [] [] []
| fa_cons d dims fs fss xs xss : (forall x, In x xs -> length x = d) -> defined_on fs xs -> independent_on fs xs ->
    factors dims fss xss -> factors (d :: dims) (fs :: fss) (xs :: xss).
Fixpoint prodv (fss : list (list (bfun (T:=R)))) (xss : list (list (list R))) (idx mu : list nat) : R :=
  match fss, xss, idx, mu with
  | fs :: fss', xs :: xss', i :: idx', m :: mu' => fn fs i (pt xs m) * prodv fss' xss' idx' mu'
  | _, _, _, _ => 1
  end.
Lemma lsum_enumF_cons (f : list nat -> R) n ns : lsum f (enumF (n :: ns)) = rsum (fun i => lsum (fun r => f (i :: r)) (enumF ns)) n.
Proof.
  rewrite (lsum_perm _ _ _ (enumF_cons_perm n ns)), lsum_flat_seq. apply rsum_ext. intros k _. now rewrite Nat.add_0_l, lsum_map.
Qed.
Lemma enumF_nil : enumF [] = [[]].
Proof. reflexivity. Qed.
Lemma tp_indep dims fss xss : factors dims fss xss -> forall c,
  (forall mu, In mu (enumF (map (@length _) xss)) -> lsum (fun idx => c idx * prodv fss xss idx mu) (enumF (map (@length _) fss)) = 0) ->
  forall idx, In idx (enumF (map (@length _) fss)) -> c idx = 0.
Proof.
  induction 1 as [|d dims fs fss xs xss Hl HD HI HF IH]; intros c H idx Hidx.
  - cbn [map] in *. rewrite enumF_nil in *. destruct Hidx as [<-|[]]. specialize (H [] (or_introl eq_refl)).
    unfold lsum, list_sum in H. cbn in H. lra.
  - cbn [map] in *. apply enumF_in in Hidx. inversion Hidx as [|i ? r ? Hi Hr]; subst. apply enumF_in in Hr.
    refine (IH (fun r => c (i :: r)) _ r Hr). clear r Hr Hidx. intros mu Hmu.
    apply (HI (fun i => lsum (fun r => c (i :: r) * prodv fss xss r mu) (enumF (map (@length _) fss)))); [|easy].
    intros x Hx. apply in_pt in Hx. destruct Hx as (m & Hm & ->).
    assert (Hmm : In (m :: mu) (enumF (length xs :: map (@length _) xss))).
    { apply enumF_in. constructor; [easy|]. now apply enumF_in. }
    refine (eq_trans _ (H _ Hmm)). rewrite lsum_enumF_cons. unfold lin. apply rsum_ext. intros k _.
    rewrite Rmult_comm, <- lsum_scal. apply lsum_ext. intros r _. cbn [prodv]. ring.
Qed.
Lemma factors_block dims fss xss : factors dims fss xss -> forall idx mu p,
  selects fss idx p -> In mu (enumF (map (@length _) xss)) ->
  exists vs, block_values dims p (pick [] xss mu) vs /\ fold_right Rmult 1 vs = prodv fss xss idx mu.
Proof.
  induction 1 as [|d dims fs fss xs xss Hl HD HI HF IH]; intros idx mu p Hs Hmu.
  - inversion Hs; subst. exists []. split; [|reflexivity]. unfold pick. cbn. constructor.
  - inversion Hs as [|? ? i r f p' Hi Hs']; subst. cbn [map] in Hmu. apply enumF_in in Hmu. inversion Hmu as [|m ? mu' ? Hm Hmu']; subst.
    apply enumF_in in Hmu'. destruct (IH r mu' p' Hs' Hmu') as (vs & B & E).
    assert (Hin : In (nth m xs []) xs) by (now apply nth_In).
    destruct (HD f (nth m xs [])) as (v & Ev); [eapply nth_error_In; eauto|easy|].
    exists (v :: vs). split.
    + unfold pick. cbn [combine map fst snd]. constructor; auto.
    + cbn [fold_right prodv]. rewrite E. f_equal. unfold fn, valR, pt. rewrite (nth_error_nth _ _ _ Hi), Ev. reflexivity.
Qed.
Lemma tp_value dims fss xss idx mu : factors dims fss xss -> In idx (enumF (map (@length _) fss)) -> In mu (enumF (map (@length _) xss)) ->
  tp_call Rops dims (match zipM (fun fs i => getitem fs i) fss idx with Ok p => p | Err _ => [] end) (concat (pick [] xss mu))
  = Ok (prodv fss xss idx mu).
Proof.
  intros HF Hi Hm. apply enumF_in in Hi. destruct (selects_exists _ _ Hi) as (p & Hp). rewrite (selects_parts _ _ _ Hp).
  destruct (factors_block _ _ _ HF idx mu p Hp Hm) as (vs & B & E). rewrite (tp_call_R _ _ _ _ B). now rewrite E.
Qed.
Lemma tp_factors dims fss xss : factors dims fss xss ->
  defined_on (tp_functions Rops dims fss) (tp_tuples xss) /\ independent_on (tp_functions Rops dims fss) (tp_tuples xss)
  /\ forall x, In x (tp_tuples xss) -> length x = sum_nat dims.
Proof.
  intros HF. rewrite tp_tuples_pick. split; [|split].
  - intros f x Hf Hx. unfold tp_functions in Hf. apply in_map_iff in Hf, Hx. destruct Hf as (idx & <- & Hi). destruct Hx as (mu & <- & Hm).
    eexists. now apply tp_value.
  - intros c H k Hk. set (L := enumF (map (@length _) fss)) in *.
    assert (TL : length L = length (tp_functions Rops dims fss)).
    { unfold L. rewrite enumF_length. symmetry. exact (tp_functions_length Rops dims fss). }
    assert (PL : forall j, (j < length L)%nat -> nth j L [] = unravelF (map (@length _) fss) j
              /\ ravelF (map (@length _) fss) (unravelF (map (@length _) fss) j) = j).
    { intros j Hj. assert (Hj' : (j < prod_nat (map (@length _) fss))%nat) by (unfold L in Hj; now rewrite enumF_length in Hj).
      split; [apply nth_error_nth, enumF_nth, Hj'|apply ravelF_unravelF, Hj']. }
    assert (Hk' : (k < length L)%nat) by (rewrite TL; exact Hk). clear Hk. rename Hk' into Hk.
    assert (G : forall idx, In idx L -> c (ravelF (map (@length _) fss) idx) = 0).
    { apply (tp_indep _ _ _ HF). intros mu Hmu. assert (Hx := H (concat (pick [] xss mu))).
      refine (eq_trans _ (Hx _)); [|apply in_map_iff; eauto]. transitivity (rsum (fun j => c j * fn (tp_functions Rops dims fss) j (concat (pick [] xss mu))) (length L));
        [|exact (f_equal (rsum _) TL)].
      rewrite <- lsum_seq. unfold lsum. f_equal.
      transitivity (map (fun j => c (ravelF (map (@length _) fss) (nth j L [])) * prodv fss xss (nth j L []) mu) (seq 0 (length L))).
      - symmetry. rewrite <- (map_map (fun j => nth j L []) (fun idx => c (ravelF (map (@length _) fss) idx) * prodv fss xss idx mu)).
        now rewrite map_nth_seq.
      - apply map_ext_in. intros j Hj. apply in_seq in Hj. assert (Hin : In (nth j L []) L) by (apply nth_In; lia).
        unfold fn, valR, tp_functions. fold L.
        rewrite (nth_indep _ _ (tp_call Rops dims (match zipM (fun fs i => getitem fs i) fss [] with Ok p => p | Err _ => [] end))) by (rewrite map_length; lia).
        rewrite (map_nth (fun idx => tp_call Rops dims (match zipM (fun fs i => getitem fs i) fss idx with Ok p => p | Err _ => [] end))).
        rewrite (tp_value dims fss xss _ mu HF Hin Hmu). do 2 f_equal.
        destruct (PL j ltac:(lia)) as [-> P2]. exact P2. }
    specialize (G (nth k L []) ltac:(now apply nth_In)). destruct (PL k Hk) as [P1 P2]. rewrite P1 in G.
    refine (eq_trans _ G). f_equal. symmetry. exact P2.
  - intros x Hx. apply in_map_iff in Hx. destruct Hx as (mu & <- & Hm). revert mu Hm.
    induction HF as [|d dims fs fss xs xss Hl HD HI HF IH]; intros mu Hm; [reflexivity|].
    cbn [map] in Hm. apply enumF_in in Hm. inversion Hm as [|m ? mu' ? H1 H2]; subst. apply enumF_in in H2.
    unfold pick in *. cbn [combine map concat fst snd]. rewrite app_length, (IH mu' H2). change (sum_nat (d :: dims)) with (d + sum_nat dims)%nat. f_equal. apply Hl. now apply nth_In.
Qed.

(** ** Simplices *)
Definition poly_unisolvent (d n : nat) (xs : list (list R)) : Prop :=
  forall f, is_poly d n f -> (forall x, In x xs -> f x = 0) -> forall x, length x = d -> f x = 0.
Lemma lattice_poly_unisolvent g d n : inj_upto g n -> poly_unisolvent d n (map (map g) (gnitsam n d)).
Proof. intros Hg f Hf Hz x Hx. exact (poly_zero g d n f Hg Hf Hz x Hx). Qed.

Lemma mono_poly d n c : is_poly d n (lin (map (monomial Rops) (gnitsam n d)) c).
Proof.
  apply (is_poly_ext d n (fun x => rsum (fun j => c j * monoval (nth j (gnitsam n d) []) x) (length (gnitsam n d)))).
  { intros x Hx. symmetry. now apply mono_lin. }
  apply is_poly_rsum with (f := fun j x => c j * monoval (nth j (gnitsam n d) []) x). intros j Hj. apply is_poly_scal.
  assert (Hin : In (nth j (gnitsam n d) []) (gnitsam n d)) by (now apply nth_In). apply gnitsam_in in Hin. destruct Hin as [H1 H2].
  exists [(1, nth j (gnitsam n d) [])]. split; [repeat constructor; easy|]. intros x _. unfold polyval. cbn [fold_right fst snd]. ring.
Qed.
Lemma INR_inj_upto n : inj_upto INR n.
Proof. intros i j _ _ H. now apply INR_eq. Qed.
Lemma mono_independent_iff d n xs : (forall x, In x xs -> length x = d) ->
  independent_on (map (monomial Rops) (gnitsam n d)) xs <-> poly_unisolvent d n xs.
Proof.
  intros Hl. split.
  - intros HI f Hf Hz x Hx. destruct (poly_combination d n f Hf) as (c & Hc). rewrite Hc by easy. unfold lin.
    apply rsum_0. intros k Hk. rewrite (HI c); [ring| |exact Hk]. intros y Hy. rewrite <- Hc; auto.
  - intros HU c Hc k Hk. destruct (lattice_unisolvent INR d n (INR_inj_upto n)) as [_ HI]. apply HI; [|exact Hk].
    intros x Hx. apply (HU _ (mono_poly d n c) Hc). now apply (lattice_len INR d n).
Qed.

Lemma onb_simplex_modes d n : (1 <= d <= 3)%nat ->
  exists ms : list omode, functions Rops (SimplexONB d n) = Ok (map fst ms) /\ length ms = space_dim (PN d n)
    /\ Forall (fun m : omode => is_poly d n (snd m)
          /\ forall x, length x = d -> good_point (SimplexONB d n) x -> fst m x = Ok (snd m x)) ms
    /\ forall k l mk ml, nth_error ms k = Some mk -> nth_error ms l = Some ml ->
         is_int (Simplex d) (fun x => snd mk x * snd ml x) (if (k =? l)%nat then 1 else 0).
Proof.
  intros Hd.
  set (F := match d with 1%nat => pkdo_1d Rops | 2%nat => pkdo_2d_fn Rops | _ => pkdo_3d_fn Rops end).
  set (P := fun (id : list nat) (x : list R) =>
     match d with
     | 1%nat => jp 0 0 (nth 0 id 0%nat) (nth 0 x 0)
     | 2%nat => phi2 (nth 0 id 0%nat) (nth 1 id 0%nat) (nth 0 x 0) (nth 1 x 0)
     | _ => phi3 (nth 0 id 0%nat) (nth 1 id 0%nat) (nth 2 id 0%nat) (nth 0 x 0) (nth 1 x 0) (nth 2 x 0)
     end).
  exists (map (fun id => (F id, P id) : omode) (simplex_mode_tuples d n)).
  split; [|split; [|split]].
  - rewrite map_map. destruct d as [|[|[|[|d]]]]; try lia; reflexivity.
  - rewrite map_length. unfold simplex_mode_tuples. rewrite gnitsam_length. reflexivity.
  - apply Forall_map_in. intros id Hid. cbn [basis_dim fst snd].
    apply gnitsam_in in Hid. destruct Hid as [Hl Hs]. unfold F, P. clear F P. split.
    + destruct d as [|[|[|[|d]]]]; try lia.
      * apply nlen1 in Hl. destruct Hl as (i & ->). cbn [nth] in *. cbn in Hs. apply (is_poly_weaken 1 i); [lia|].
        apply (jp_poly 1 0 0 i (fun x => nth 0 x 0)). apply is_poly_coord. lia.
      * apply nlen2 in Hl. destruct Hl as (i & j & ->). cbn [nth] in *. cbn in Hs. apply (is_poly_weaken 2 (i + j)); [lia|]. apply phi2_poly.
      * apply nlen3 in Hl. destruct Hl as (i & j & k & ->). cbn [nth] in *. cbn in Hs. apply (is_poly_weaken 3 (i + j + k)); [lia|]. apply phi3_poly.
    + intros x Hx Hg. destruct d as [|[|[|[|d]]]]; try lia.
      * apply len1 in Hx. destruct Hx as (r & ->). apply nlen1 in Hl. destruct Hl as (i & ->).
        cbn [pkdo_1d nth]. now rewrite jac0.
      * apply len2 in Hx. destruct Hx as (r & s & ->). apply nlen2 in Hl. destruct Hl as (i & j & ->).
        cbn [pkdo_2d_fn nth good_point] in *. now rewrite pkdo_2d_phi.
      * apply len3 in Hx. destruct Hx as (r & s & t & ->). apply nlen3 in Hl. destruct Hl as (i & j & k & ->).
        cbn [pkdo_3d_fn nth good_point] in *. now rewrite pkdo_3d_phi.
  - apply (NoDup_map_int (simplex_mode_tuples d n) F P).
    + apply gnitsam_NoDup.
    + intros id id' Hi Hi' l L1 L2. apply gnitsam_in in Hi. apply gnitsam_in in Hi'.
      destruct Hi as [Hi _], Hi' as [Hi' _]. cbn [is_int]. unfold P, F in *. clear P F.
      destruct d as [|[|[|[|d]]]]; try lia.
      * apply nlen1 in Hi. destruct Hi as (i & ->). apply nlen1 in Hi'. destruct Hi' as (i' & ->).
        cbn [nth]. eapply (is_int_cast (Simplex 1)); [apply jp0_ortho|]. unfold ProofJacobiOrtho.delta.
        destruct (Nat.eqb_spec i i'); [subst; symmetry; auto|]. symmetry. apply L2. congruence.
      * apply nlen2 in Hi. destruct Hi as (i & j & ->). apply nlen2 in Hi'. destruct Hi' as (i' & j' & ->).
        cbn [nth]. eapply (is_int_cast (Simplex 2)); [apply phi2_ortho|]. unfold ProofJacobiOrtho.delta.
        destruct (Nat.eqb_spec i i'), (Nat.eqb_spec j j');
          subst; first [rewrite L1 by easy; ring | rewrite L2 by congruence; ring].
      * apply nlen3 in Hi. destruct Hi as (i & j & k & ->). apply nlen3 in Hi'.
        destruct Hi' as (i' & j' & k' & ->).
        cbn [nth]. eapply (is_int_cast (Simplex 3)); [apply phi3_ortho|]. unfold ProofJacobiOrtho.delta.
        destruct (Nat.eqb_spec i i'), (Nat.eqb_spec j j'), (Nat.eqb_spec k k');
          subst; first [rewrite L1 by easy; ring | rewrite L2 by congruence; ring].
Qed.

(** ** Polynomials of a function space *)
Inductive space_exp : fspace -> list nat -> Prop :=
| se_pn d n e : length e = d -> (total e <= n)%nat -> space_exp (PN d n) e
| se_tp c ss es : Forall2 space_exp ss es -> space_exp (TPSpace c ss) (concat es).
Definition in_space (s : fspace) (f : list R -> R) : Prop :=
  exists ts : list (R * list nat), Forall (fun t => space_exp s (snd t)) ts /\ forall x, length x = spatial_dim s -> f x = polyval ts x.
Definition in_spaces (ss : list fspace) (f : list R -> R) : Prop :=
  exists ts : list (R * list nat), Forall (fun t => exists es, Forall2 space_exp ss es /\ snd t = concat es) ts
    /\ forall x, length x = sum_nat (map spatial_dim ss) -> f x = polyval ts x.
Lemma in_space_tp c ss f : in_space (TPSpace c ss) f <-> in_spaces ss f.
Proof.
  split; intros (ts & H1 & H2); exists ts; (split; [|exact H2]); eapply Forall_impl; try exact H1; intros t Ht.
  - inversion Ht; subst. eauto.
  - destruct Ht as (es & HF & ->). now constructor.
Qed.
Lemma in_space_pn d n f : in_space (PN d n) f <-> is_poly d n f.
Proof.
  split; intros (ts & H1 & H2); exists ts; (split; [|exact H2]); eapply Forall_impl; try exact H1; intros t Ht.
  - now inversion Ht; subst.
  - destruct Ht. now constructor.
Qed.
Lemma space_exp_len s : forall e, space_exp s e -> length e = spatial_dim s.
Proof.
  induction s as [d n|c bs IH] using fspace_ind'; intros e H; inversion H as [|? ? es HF]; subst; [easy|]. cbn [spatial_dim].
  clear H. induction HF as [|s e' ss es H1 HF IHF]; [reflexivity|]. inversion IH as [|? ? I1 I2]; subst. cbn [concat map]. rewrite app_length.
  change (sum_nat (spatial_dim s :: map spatial_dim ss)) with (spatial_dim s + sum_nat (map spatial_dim ss))%nat.
  rewrite (I1 e' H1), (IHF I2). reflexivity.
Qed.
Lemma monoval_app e1 e2 x1 x2 : length e1 = length x1 -> monoval (e1 ++ e2) (x1 ++ x2) = monoval e1 x1 * monoval e2 x2.
Proof.
  revert x1. induction e1 as [|k e1 IH]; intros [|t x1] H; try discriminate; cbn [app monoval]; [ring|]. cbn in H. rewrite IH by lia. ring.
Qed.
Lemma in_space_ext s f g : (forall x, length x = spatial_dim s -> f x = g x) -> in_space s f -> in_space s g.
Proof. intros H (ts & H1 & H2). exists ts. split; [easy|]. intros x Hx. rewrite <- H; auto. Qed.
Lemma in_space_plus s f g : in_space s f -> in_space s g -> in_space s (fun x => f x + g x).
Proof.
  intros (t1 & A1 & B1) (t2 & A2 & B2). exists (t1 ++ t2). split; [now apply Forall_app|]. intros x Hx. rewrite polyval_app, B1, B2; easy.
Qed.
Lemma polyval_scal c ts x : polyval (map (fun t => (c * fst t, snd t)) ts) x = c * polyval ts x.
Proof. induction ts as [|t ts IH]; unfold polyval in *; cbn [map fold_right fst snd]; [ring|]. rewrite IH. ring. Qed.
Lemma in_space_scal s c f : in_space s f -> in_space s (fun x => c * f x).
Proof.
  intros (ts & A & B). exists (map (fun t => (c * fst t, snd t)) ts). split.
  - apply Forall_map. eapply Forall_impl; [|exact A]. easy.
  - intros x Hx. rewrite polyval_scal, B; easy.
Qed.
Lemma in_space_rsum s n (F : nat -> list R -> R) : (forall k, (k < n)%nat -> in_space s (F k)) -> in_space s (fun x => rsum (fun k => F k x) n).
Proof.
  induction n as [|n IH]; intros H; cbn [rsum].
  - exists []. split; [constructor|]. intros. reflexivity.
  - apply (in_space_plus s (fun x => rsum (fun k => F k x) n) (F n)); auto.
Qed.
Definition tmul (l1 l2 : list (R * list nat)) : list (R * list nat) :=
  flat_map (fun t => map (fun u => (fst t * fst u, snd t ++ snd u)) l2) l1.
Lemma polyval_tmul l1 l2 x y : (forall t, In t l1 -> length (snd t) = length x) ->
  polyval (tmul l1 l2) (x ++ y) = polyval l1 x * polyval l2 y.
Proof.
  intros H. induction l1 as [|t l1 IH].
  - unfold polyval at 1 2. cbn. ring.
  - change (tmul (t :: l1) l2) with (map (fun u => (fst t * fst u, snd t ++ snd u)) l2 ++ tmul l1 l2).
    rewrite polyval_app, IH by (intros; apply H; now right).
    assert (E : polyval (map (fun u => (fst t * fst u, snd t ++ snd u)) l2) (x ++ y) = fst t * monoval (snd t) x * polyval l2 y).
    { clear IH. induction l2 as [|u l2 IH2]; unfold polyval in *; cbn [map fold_right fst snd]; [ring|]. rewrite IH2, monoval_app; [ring|].
      apply H. now left. }
    rewrite E. change (polyval (t :: l1) x) with (fst t * monoval (snd t) x + polyval l1 x). ring.
Qed.
Lemma in_spaces_cons s ss f g : in_space s f -> in_spaces ss g ->
  in_spaces (s :: ss) (fun x => f (firstn (spatial_dim s) x) * g (skipn (spatial_dim s) x)).
Proof.
  intros (t1 & A1 & B1) (t2 & A2 & B2). exists (tmul t1 t2). rewrite Forall_forall in A1, A2. split.
  - apply Forall_forall. intros t Ht. apply in_flat_map in Ht. destruct Ht as (u & Hu & Ht). apply in_map_iff in Ht. destruct Ht as (v & <- & Hv).
    cbn [snd]. destruct (A2 v Hv) as (es & E1 & E2). exists (snd u :: es). split; [constructor; auto|]. cbn [concat]. now rewrite E2.
  - intros x Hx. cbn [map] in Hx. change (sum_nat (spatial_dim s :: map spatial_dim ss)) with (spatial_dim s + sum_nat (map spatial_dim ss))%nat in Hx.
    rewrite <- (firstn_skipn (spatial_dim s) x) at 3. assert (L1 : length (firstn (spatial_dim s) x) = spatial_dim s) by (rewrite firstn_length; lia).
    rewrite polyval_tmul.
    + rewrite B1, B2; [reflexivity|rewrite skipn_length; lia|easy].
    + intros t Ht. rewrite L1. apply space_exp_len. auto.
Qed.
(** freezing one block of variables *)
Lemma in_spaces_left s ss f y : in_spaces (s :: ss) f -> length y = sum_nat (map spatial_dim ss) -> in_space s (fun x => f (x ++ y)).
Proof.
  intros (ts & A & B) Hy.
  assert (G : exists ts', Forall (fun t => space_exp s (snd t)) ts' /\ forall x, length x = spatial_dim s -> polyval ts (x ++ y) = polyval ts' x).
  { clear B. induction A as [|t ts (es & E1 & E2) A (ts' & A' & B')].
    - exists []. split; [constructor|]. reflexivity.
    - inversion E1 as [|? e ? es' H1 H2]; subst. exists ((fst t * monoval (concat es') y, e) :: ts'). split; [constructor; auto|].
      intros x Hx. unfold polyval in *. cbn [fold_right fst snd]. rewrite B' by easy. rewrite E2. cbn [concat].
      rewrite monoval_app by (rewrite Hx; now apply space_exp_len). ring. }
  destruct G as (ts' & A' & B'). exists ts'. split; [easy|]. intros x Hx. rewrite B; [now apply B'|]. rewrite app_length, Hx, Hy. reflexivity.
Qed.
Lemma in_spaces_right s ss f x : in_spaces (s :: ss) f -> length x = spatial_dim s -> in_spaces ss (fun y => f (x ++ y)).
Proof.
  intros (ts & A & B) Hx.
  assert (G : exists ts' : list (R * list nat), Forall (fun t => exists es, Forall2 space_exp ss es /\ snd t = concat es) ts'
     /\ forall y, polyval ts (x ++ y) = polyval ts' y).
  { clear B. induction A as [|t ts (es & E1 & E2) A (ts' & A' & B')].
    - exists []. split; [constructor|]. reflexivity.
    - inversion E1 as [|? e ? es' H1 H2]; subst. exists ((fst t * monoval e x, concat es') :: ts'). split; [constructor; eauto|].
      intros y. unfold polyval in *. cbn [fold_right fst snd]. rewrite B'. rewrite E2. cbn [concat].
      rewrite monoval_app by (rewrite Hx; now apply space_exp_len). ring. }
  destruct G as (ts' & A' & B'). exists ts'. split; [easy|]. intros y Hy. rewrite B; [now apply B'|]. rewrite app_length, Hx, Hy. reflexivity.
Qed.

(** ** Node sets built from unisolvent simplex nodes *)
Inductive nodes_of : fspace -> list (list R) -> Prop :=
| no_pn d n xs : length xs = space_dim (PN d n) -> (forall x, In x xs -> length x = d /\ good_point (SimplexONB d n) x) ->
    poly_unisolvent d n xs -> nodes_of (PN d n) xs
| no_tp c ss xss : Forall2 nodes_of ss xss -> nodes_of (TPSpace c ss) (tp_tuples xss).
Inductive basis_of : fspace -> basis -> Prop :=
| bo_mono d n : basis_of (PN d n) (SimplexMonomial d n)
| bo_onb d n : (1 <= d <= 3)%nat -> basis_of (PN d n) (SimplexONB d n)
| bo_tp c ss bs : Forall2 basis_of ss bs -> basis_of (TPSpace c ss) (TPBasis bs (map spatial_dim ss)).

Lemma nodes_of_dim s : forall xs, nodes_of s xs -> length xs = space_dim s /\ forall x, In x xs -> length x = spatial_dim s.
Proof.
  induction s as [d n|c bs IH] using fspace_ind'; intros xs H; inversion H as [? ? ? L HG HU|? ? xss HF]; subst.
  - split; [easy|]. intros x Hx. now apply HG.
  - clear H. split.
    + rewrite tp_tuples_length. cbn [space_dim]. unfold prod_nat. f_equal. induction HF as [|s xs ss xss H1 HF IHF]; [reflexivity|]. inversion IH as [|? ? I1 I2]; subst.
      cbn [map]. destruct (I1 xs H1) as [-> _]. f_equal. now apply IHF.
    + intros x Hx. apply tp_tuples_in in Hx. destruct Hx as (parts & Hp & ->). cbn [spatial_dim]. revert parts Hp.
      induction HF as [|s xs ss xss H1 HF IHF]; intros parts Hp; inversion Hp; subst; [reflexivity|]. inversion IH as [|? ? I1 I2]; subst. cbn [concat map]. rewrite app_length.
      change (sum_nat (spatial_dim s :: map spatial_dim ss)) with (spatial_dim s + sum_nat (map spatial_dim ss))%nat.
      destruct (I1 xs H1) as [_ Hd]. rewrite Hd by easy. f_equal. match goal with H : Forall2 _ ?l xss |- _ => exact (IHF I2 l H) end.
Qed.
Lemma nodes_of_zero s : forall xs, nodes_of s xs -> forall f, in_space s f -> (forall x, In x xs -> f x = 0) ->
  forall x, length x = spatial_dim s -> f x = 0.
Proof.
  induction s as [d n|c bs IH] using fspace_ind'; intros xs H; inversion H as [? ? ? L HG HU|? ? xss HF]; subst; intros f Hf Hz x Hx.
  - apply HU; auto. now apply in_space_pn.
  - apply in_space_tp in Hf. clear H. cbn [spatial_dim] in Hx. revert f Hf Hz x Hx.
    induction HF as [|s xs ss xss H1 HF IHF]; intros f Hf Hz x Hx.
    + destruct x; [|discriminate]. apply Hz. apply tp_tuples_in. exists []. split; [constructor|reflexivity].
    + inversion IH as [|? ? I1 I2]; subst.
      change (sum_nat (map spatial_dim (s :: ss))) with (spatial_dim s + sum_nat (map spatial_dim ss))%nat in Hx.
      rewrite <- (firstn_skipn (spatial_dim s) x).
      assert (L1 : length (firstn (spatial_dim s) x) = spatial_dim s) by (rewrite firstn_length; lia).
      assert (L2 : length (skipn (spatial_dim s) x) = sum_nat (map spatial_dim ss)) by (rewrite skipn_length; lia).
      apply (I1 xs H1 (fun u => f (u ++ skipn (spatial_dim s) x))); [now apply (in_spaces_left s ss)| |easy].
      intros u Hu. destruct (nodes_of_dim s xs H1) as [_ Hd].
      apply (IHF I2 (fun y => f (u ++ y))); [apply (in_spaces_right s ss); auto| |easy].
      intros y Hy. apply tp_tuples_in in Hy. destruct Hy as (parts & Hp & ->). apply Hz. apply tp_tuples_in. exists (u :: parts).
      split; [now constructor|reflexivity].
Qed.

(** ** Bases of a space: polynomials of the space, one per dimension *)
Definition modes_of (s : fspace) (b : basis) (ms : list omode) : Prop :=
  functions Rops b = Ok (map fst ms) /\ length ms = space_dim s
  /\ Forall (fun m : omode => in_space s (snd m)
        /\ forall x, length x = spatial_dim s -> good_point b x -> fst m x = Ok (snd m x)) ms.
Lemma basis_of_dim s : forall b, basis_of s b -> basis_dim b = spatial_dim s.
Proof. intros b H. destruct H; reflexivity. Qed.
Lemma basis_of_dims ss bs : Forall2 basis_of ss bs -> map basis_dim bs = map spatial_dim ss.
Proof. induction 1 as [|s b ss bs H _ IH]; [reflexivity|]. cbn [map]. now rewrite IH, (basis_of_dim s b H). Qed.
Lemma tpphi_in_space bs ss mss idx ml : Forall2 basis_of ss bs -> Forall2 (fun p ms => modes_of (fst p) (snd p) ms) (combine ss bs) mss ->
  selects mss idx ml -> in_spaces ss (fun x => tpphi ml (blocks (map spatial_dim ss) x)).
Proof.
  intros HB. revert mss idx ml. induction HB as [|s b ss bs Hb HB IH]; intros mss idx ml HM Hs.
  - inversion HM; subst. inversion Hs; subst. exists [(1, [])]. split.
    + repeat constructor. exists []. split; [constructor|reflexivity].
    + intros x _. cbn [tpphi]. unfold polyval. cbn. ring.
  - cbn [combine] in HM. inversion HM as [|? ms ? mss' M1 M2]; subst. inversion Hs as [|? ? i r m ml' Hi Hs']; subst.
    cbn [map blocks tpphi]. destruct M1 as (_ & _ & MF). cbn [fst snd] in MF. rewrite Forall_forall in MF. apply nth_error_In in Hi.
    destruct (MF m Hi) as [P _].
    exact (in_spaces_cons s ss (snd m) (fun y => tpphi ml' (blocks (map spatial_dim ss) y)) P (IH _ _ _ M2 Hs')).
Qed.
Lemma tpphi_value bs ss mss idx ml x : Forall2 basis_of ss bs -> Forall2 (fun p ms => modes_of (fst p) (snd p) ms) (combine ss bs) mss ->
  selects mss idx ml -> length x = sum_nat (map spatial_dim ss) -> good_point_all bs x ->
  exists vs, block_values (map spatial_dim ss) (map fst ml) (blocks (map spatial_dim ss) x) vs
    /\ fold_right Rmult 1 vs = tpphi ml (blocks (map spatial_dim ss) x).
Proof.
  intros HB. revert mss idx ml x. induction HB as [|s b ss bs Hb HB IH]; intros mss idx ml x HM Hs Hx Hg.
  - inversion HM; subst. inversion Hs; subst. exists []. split; constructor.
  - cbn [combine] in HM. inversion HM as [|? ms ? mss' M1 M2]; subst. inversion Hs as [|? ? i r m ml' Hi Hs']; subst.
    cbn [map] in Hx. change (sum_nat (spatial_dim s :: map spatial_dim ss)) with (spatial_dim s + sum_nat (map spatial_dim ss))%nat in Hx.
    destruct Hg as [Hg1 Hg2]. rewrite (basis_of_dim s b Hb) in Hg1, Hg2.
    destruct (IH _ _ _ (skipn (spatial_dim s) x) M2 Hs') as (vs & B & E); [rewrite skipn_length; lia|easy|].
    destruct M1 as (_ & _ & MF). cbn [fst snd] in MF. rewrite Forall_forall in MF. apply nth_error_In in Hi. destruct (MF m Hi) as [_ Hm].
    assert (Hf : length (firstn (spatial_dim s) x) = spatial_dim s) by (rewrite firstn_length; lia).
    exists (snd m (firstn (spatial_dim s) x) :: vs). cbn [map blocks tpphi fold_right]. split.
    + constructor; auto.
    + now rewrite E.
Qed.
Lemma basis_modes s : forall b, basis_of s b -> exists ms, modes_of s b ms.
Proof.
  induction s as [d n|c ss IH] using fspace_ind'; intros b H; inversion H as [| |? ? bs HB]; subst.
  - exists (map (fun e => (monomial Rops e, monoval e) : omode) (gnitsam n d)). split; [|split].
    + rewrite map_map. reflexivity.
    + rewrite map_length, gnitsam_length. reflexivity.
    + apply Forall_map_in. intros e He. cbn [fst snd]. apply gnitsam_in in He. destruct He as [L T]. split.
      * exists [(1, e)]. split; [repeat constructor; auto|]. intros x _. unfold polyval. cbn [fold_right fst snd]. ring.
      * intros x Hx _. apply monomial_val. cbn [spatial_dim] in Hx. lia.
  - match goal with H : (1 <= d <= 3)%nat |- _ => destruct (onb_simplex_modes d n H) as (ms & E & L & F & _) end.
    exists ms. split; [easy|]. split; [easy|]. eapply Forall_impl; [|exact F]. intros m [P V0]. split; [now apply in_space_pn|exact V0].
  - clear H. assert (exists mss, Forall2 (fun p ms => modes_of (fst p) (snd p) ms) (combine ss bs) mss) as (mss & HM).
    { clear -IH HB. induction HB as [|s b ss bs Hb HB IHB]; [exists []; constructor|]. inversion IH as [|? ? I1 I2]; subst.
      destruct (I1 b Hb) as (ms & Hm). destruct (IHB I2) as (mss & Hms). exists (ms :: mss). now constructor. }
    set (dims := map spatial_dim ss).
    exists (map (fun idx => (tp_call Rops dims (map fst (sel_parts mss idx)),
                           fun x => tpphi (sel_parts mss idx) (blocks dims x)) : omode)
              (enumF (map (@length _) mss))).
    assert (EL : map (@length _) (map (map (@fst (bfun (T:=R)) (list R -> R))) mss) = map (@length _) mss).
    { rewrite map_map. apply map_ext. intros; apply map_length. }
    assert (SE : forall idx, In idx (enumF (map (@length _) mss)) ->
            exists ml, selects mss idx ml /\ sel_parts mss idx = ml).
    { intros idx Hi. apply enumF_in in Hi. destruct (selects_exists mss idx Hi) as (ml & Hs).
      exists ml. split; [easy|]. now apply sel_parts_ok. }
    split; [|split].
    + rewrite map_map. cbn [fst].
      assert (HF' : mapM (functions Rops) bs = Ok (map (map fst) mss)).
      { apply mapM_Ok_Forall2. clear -HM HB. revert mss HM. induction HB; intros mss HM; inversion HM as [|? ? ? ? M1 M2]; subst; cbn [map]; constructor; auto.
        apply M1. }
      rewrite (functions_tp_eq Rops bs dims _ HF'). f_equal. unfold tp_functions. rewrite EL.
      apply map_ext_in. intros idx Hi. destruct (SE idx Hi) as (ml & Hs & ->).
      now rewrite (selects_parts _ _ _ (selects_map fst _ _ _ Hs)).
    + rewrite map_length, enumF_length. cbn [space_dim]. f_equal. clear -HM HB. revert mss HM.
      induction HB; intros mss HM; inversion HM as [|? ? ? ? M1 M2]; subst; cbn [map]; [reflexivity|]. destruct M1 as (_ & -> & _). f_equal. auto.
    + apply Forall_map_in. intros idx Hi. destruct (SE idx Hi) as (ml & Hs & ->). cbn [fst snd]. split.
      * apply in_space_tp. eapply tpphi_in_space; eauto.
      * intros x Hx Hg. apply good_point_TP in Hg.
        destruct (tpphi_value bs ss mss idx ml x HB HM Hs Hx Hg) as (vs & B & E). fold dims in B, E.
        rewrite <- (blocks_concat dims x Hx) at 1. rewrite (tp_call_R _ _ _ _ B). now rewrite E.
Qed.

(** ** Unisolvence *)
Lemma good_pn b d n x : basis_of (PN d n) b -> good_point (SimplexONB d n) x -> good_point b x.
Proof. intros H. inversion H; subst; [now cbn|easy]. Qed.
Lemma nodes_good s : forall b xs, basis_of s b -> nodes_of s xs -> forall x, In x xs -> good_point b x.
Proof.
  induction s as [d n|c ss IH] using fspace_ind'; intros b xs HB HN x Hx.
  - inversion HN as [? ? ? L HG HU|]; subst. apply (good_pn b d n); [easy|]. now apply HG.
  - inversion HB as [| |? ? bs HB']; subst. inversion HN as [|? ? xss HN']; subst. apply good_point_TP. clear HB HN.
    apply tp_tuples_in in Hx. destruct Hx as (parts & Hp & ->). revert xss HN' parts Hp.
    induction HB' as [|s b ss bs Hb HB' IHB]; intros xss HN' parts Hp; inversion HN' as [|? xs ? xss' N1 N2]; subst; inversion Hp as [|y ? parts' ? P1 P2]; subst; [exact I|].
    inversion IH as [|? ? I1 I2]; subst. cbn [good_point_all concat]. rewrite (basis_of_dim s b Hb).
    destruct (nodes_of_dim s xs N1) as [_ Hd]. rewrite <- (Hd y P1), firstn_app_len, skipn_app_len. split; [now apply (I1 b xs)|eapply IHB; eauto].
Qed.
Lemma uni_of s : forall b xs, basis_of s b -> nodes_of s xs ->
  exists fs, functions Rops b = Ok fs /\ defined_on fs xs /\ unisolvent fs xs.
Proof.
  induction s as [d n|c ss IH] using fspace_ind'; intros b xs HB HN.
  - destruct (basis_modes _ _ HB) as (ms & Ef & L & MF). destruct (nodes_of_dim _ _ HN) as [Lx Hd]. cbn [spatial_dim] in *.
    exists (map fst ms). split; [easy|]. rewrite Forall_forall in MF. split; [|split].
    + intros f x Hf Hx. apply in_map_iff in Hf. destruct Hf as (m & <- & Hm). destruct (MF m Hm) as [_ Hv]. rewrite Hv; eauto.
      eapply nodes_good; eauto.
    + rewrite map_length. exact (eq_trans L (eq_sym Lx)).
    + inversion HN as [? ? ? _ HG HU|]; subst. inversion HB; subst.
      * assert (E : map fst ms = map (monomial Rops) (gnitsam n d)) by (assert (E0 : Ok (map fst ms) = Ok (map (monomial Rops) (gnitsam n d))) by (exact (eq_trans (eq_sym Ef) eq_refl)); now injection E0).
        rewrite E.
        apply mono_independent_iff; [|easy]. intros x Hx. now apply HG.
      * match goal with H : (1 <= d <= 3)%nat |- _ => destruct (onb_simplex_modes d n H) as (ms' & E' & L' & F' & O') end.
        assert (EM : map fst ms = map fst ms') by congruence. rewrite EM. clear ms Ef L MF EM.
        rewrite Forall_forall in F'. intros c Hc k Hk. rewrite map_length in Hk.
        set (P := fun x => rsum (fun j => c j * snd (nth j ms' ((fun _ => Err IndexError), (fun _ => 0))) x) (length ms')).
        assert (HP : is_poly d n P).
        { apply is_poly_rsum with (f := fun j x => c j * snd (nth j ms' ((fun _ => Err IndexError), (fun _ => 0))) x).
          intros j Hj. apply is_poly_scal. apply F'. now apply nth_In. }
        assert (HZ : forall x, length x = d -> P x = 0).
        { apply (HU P HP). intros x Hx. rewrite <- (Hc x Hx). unfold P, lin. rewrite map_length. apply rsum_ext. intros j Hj. f_equal.
          unfold fn, valR. rewrite (nth_indep _ _ (fst ((fun _ => Err IndexError) : bfun (T:=R), (fun _ : list R => 0)))) by (now rewrite map_length).
          rewrite map_nth. destruct (HG x Hx) as [G1 G2].
          destruct (F' (nth j ms' ((fun _ => Err IndexError), (fun _ => 0)))) as [_ Hv]; [now apply nth_In|].
          symmetry. change (match fst (nth j ms' ((fun _ => Err IndexError), (fun _ => 0))) x with Ok v => v | Err _ => 0 end = snd (nth j ms' ((fun _ => Err IndexError), (fun _ => 0))) x).
          rewrite Hv by easy. reflexivity. }
        assert (HI : is_int (Simplex d) (fun x => P x * snd (nth k ms' ((fun _ => Err IndexError), (fun _ => 0))) x) (c k)).
        { eapply is_int_cast.
          - eapply is_int_ext with (f := fun x => rsum (fun j => c j * (snd (nth j ms' ((fun _ => Err IndexError), (fun _ => 0))) x
                 * snd (nth k ms' ((fun _ => Err IndexError), (fun _ => 0))) x)) (length ms')).
            + intros x _. unfold P. rewrite <- rsum_scal_r. apply rsum_ext. intros; ring.
            + apply is_int_rsum. intros j Hj. apply is_int_scal. apply (O' j k); now apply nth_error_nth'.
          - rewrite (rsum_ext _ (fun j => c j * delta j k)) by reflexivity. now apply rsum_delta_r. }
        assert (HI0 : is_int (Simplex d) (fun x => P x * snd (nth k ms' ((fun _ => Err IndexError), (fun _ => 0))) x) 0).
        { eapply is_int_ext; [|apply is_int_zero]. intros x Hx. cbv beta. rewrite HZ; [ring|]. now destruct Hx. }
        exact (is_int_unique _ _ _ _ HI HI0).
  - inversion HB as [| |? ? bs HB']; subst. inversion HN as [|? ? xss HN']; subst.
    assert (exists fss, mapM (functions Rops) bs = Ok fss /\ factors (map spatial_dim ss) fss xss /\ map (@length _) fss = map (@length _) xss)
      as (fss & EF & FF & EL).
    { clear HB HN. revert xss HN'. induction HB' as [|s b ss bs Hb HB' IHB]; intros xss HN'; inversion HN' as [|? xs ? xss' N1 N2]; subst.
      - exists []. split; [reflexivity|]. split; [constructor|reflexivity].
      - inversion IH as [|? ? I1 I2]; subst. destruct (IHB I2 _ N2) as (fss & E1 & F1 & L1). destruct (I1 b xs Hb N1) as (fs & E2 & D2 & U1 & U2).
        exists (fs :: fss). cbn [mapM]. rewrite E2. cbn [bind]. rewrite E1. cbn [bind]. split; [reflexivity|]. split.
        + cbn [map]. constructor; auto. apply (nodes_of_dim s xs N1).
        + cbn [map]. f_equal; [exact U1|exact L1]. }
    exists (tp_functions Rops (map spatial_dim ss) fss). split; [now apply functions_tp_eq|].
    destruct (tp_factors _ _ _ FF) as (D & I & _). split; [easy|]. split; [|easy].
    rewrite tp_tuples_length, <- EL. apply (tp_functions_length Rops).
Qed.

(** ** Equispaced nodes *)
Inductive orders_ok : fspace -> Prop :=
| oo_pn d n : INR n < 2 * 10 ^ 10 -> orders_ok (PN d n)
| oo_tp c ss : Forall orders_ok ss -> orders_ok (TPSpace c ss).
Lemma gnitsam_zero d : gnitsam 0 d = [repeat 0%nat d].
Proof. induction d as [|d IH]; [reflexivity|]. simpl. rewrite app_nil_r, IH. cbn [map]. f_equal. symmetry. apply repeat_cons. Qed.
Lemma inv10_10 : / 10 ^ 10 < 1.
Proof. apply Rmult_lt_reg_l with (10 ^ 10); [lra|]. rewrite Rinv_r by lra. lra. Qed.
Lemma inv10_12 : / 10 ^ 12 < 1.
Proof. apply Rmult_lt_reg_l with (10 ^ 12); [lra|]. rewrite Rinv_r by lra. lra. Qed.
Lemma good_lattice d n t : (0 < n)%nat -> INR n < 2 * 10 ^ 10 -> length t = d -> (total t <= n)%nat ->
  good_point (SimplexONB d n) (map (node_coord n) t).
Proof.
  intros Hn HO Hl Ht. assert (P : 0 < INR n) by (now apply lt_0_INR).
  assert (Q : / 10 ^ 10 < 2 / INR n).
  { apply Rmult_lt_reg_r with (INR n); [easy|]. apply Rmult_lt_reg_l with (10 ^ 10); [lra|]. field_simplify; lra. }
  assert (E : forall k, (k <= n)%nat -> node_coord n k - 1 = - (2 / INR n) * INR (n - k)).
  { intros k Hk. unfold node_coord. rewrite minus_INR by easy. field. lra. }
  assert (A : forall k, (k < n)%nat -> / 10 ^ 10 < Rabs (- (2 / INR n) * INR (n - k))).
  { intros k Hk. rewrite Ropp_mult_distr_l_reverse, Rabs_Ropp. rewrite Rabs_right.
    - assert (1 <= INR (n - k)) by (apply (le_INR 1); lia). assert (0 < / 10 ^ 10) by (apply Rinv_0_lt_compat; lra).
      apply Rlt_le_trans with (2 / INR n * 1); [lra|]. apply Rmult_le_compat_l; lra.
    - apply Rle_ge, Rmult_le_pos; [|apply pos_INR]. apply Rlt_le. assert (0 < / 10 ^ 10) by (apply Rinv_0_lt_compat; lra). lra. }
  assert (Z : node_coord n 0 = -1) by (unfold node_coord; cbn [INR]; unfold Rdiv; ring).
  assert (O : node_coord n n = 1) by (unfold node_coord; field; lra).
  destruct d as [|[|[|[|d]]]]; try exact I.
  - apply nlen2 in Hl. destruct Hl as (i & j & ->). cbn in Ht. cbn [good_point map nth]. unfold good2.
    destruct (Nat.eq_dec j n) as [->|Hj].
    + right. assert (i = 0)%nat as -> by lia. exact Z.
    + left. rewrite E by lia. apply Rlt_le. eapply Rlt_trans; [|apply A; lia]. apply Rinv_lt_contravar; [|lra]. apply Rmult_lt_0_compat; lra.
  - apply nlen3 in Hl. destruct Hl as (i & j & k & ->). cbn in Ht. cbn [good_point map nth]. unfold good3. split.
    + destruct (Nat.eq_dec (j + k) n) as [Hj|Hj].
      * right. assert (i = 0)%nat as -> by lia. exact Z.
      * left. replace (node_coord n j + node_coord n k) with (node_coord n (j + k) - 1); [rewrite E by lia; apply A; lia|].
        unfold node_coord. rewrite plus_INR. field. lra.
    + destruct (Nat.eq_dec k n) as [->|Hk].
      * right. assert (j = 0)%nat as -> by lia. exact Z.
      * left. rewrite E by lia. apply A; lia.
Qed.
Lemma equi_nodes_pn d n p : INR n < 2 * 10 ^ 10 -> equispaced_nodes_for_space (PN d n) (Simplex d) = Ok p -> nodes_of (PN d n) (pts_cols p).
Proof.
  intros HO E. rewrite equispaced_pn_eq in E. match type of E with Ok ?x = _ => assert (p = x) as -> by congruence end. clear E.
  destruct (Nat.eqb_spec n 0) as [->|Hn].
  - rewrite mean_simplex. set (c := 2 / (INR d + 1) - 1).
    assert (EC : [repeat c d] = map (map (fun _ => c)) (gnitsam 0 d)).
    { rewrite gnitsam_zero. cbn [map]. f_equal. clearbody c. induction d; cbn [repeat map]; congruence. }
    constructor.
    + rewrite EC, map_length. apply gnitsam_length.
    + intros x [<-|[]]. split; [apply repeat_length|]. destruct d as [|[|[|[|d]]]]; try exact I; cbn [good_point repeat nth].
      * left. unfold c. cbn [INR]. rewrite Rabs_left by lra. pose proof inv10_12. lra.
      * pose proof inv10_10.
        split; left; unfold c; cbn [INR]; rewrite Rabs_left by lra; lra.
    + rewrite EC. apply lattice_poly_unisolvent. intros i j Hi Hj _. lia.
  - unfold scale_tuples. cbn [pts_cols]. change (fun t => INR t / INR n * 2 - 1) with (node_coord n). constructor.
    + rewrite map_length. apply gnitsam_length.
    + intros x Hx. apply in_map_iff in Hx. destruct Hx as (t & <- & Ht). apply gnitsam_in in Ht. destruct Ht as [L T]. split; [now rewrite map_length|].
      apply good_lattice; auto. lia.
    + apply lattice_poly_unisolvent. intros i j _ _ H. apply (node_coord_inj n); [lia|easy].
Qed.
Lemma tensor_nodes c ss ps : Forall2 (fun s p => nodes_of s (pts_cols p) /\ wf_pts p /\ NoDup (pts_cols p)) ss ps ->
  exists p, tensor_product_pts ps = Ok p /\ nodes_of (TPSpace c ss) (pts_cols p).
Proof.
  intros HF.
  assert (HW : Forall wf_pts ps /\ Forall (fun p => NoDup (pts_cols p)) ps /\ Forall (fun p => (0 < length (pts_cols p))%nat) ps
     /\ Forall2 nodes_of ss (map pts_cols ps)).
  { induction HF as [|s p ss ps (H1 & H2 & H3) HF (A & B & C & D)]; [repeat split; constructor|]. repeat split; try (constructor; auto).
    destruct (nodes_of_dim _ _ H1) as [L _]. pose proof (space_dim_pos s). unfold lt in *. rewrite L. easy. }
  destruct HW as (A & B & C & D). destruct (tensor_product_pts_cols ps A B C) as (p & E & _ & Ec & _).
  exists p. split; [easy|]. rewrite Ec. now constructor.
Qed.
Lemma equi_nodes s : forall sh, fits s sh -> orders_ok s -> exists p, equispaced_nodes_for_space s sh = Ok p /\ nodes_of s (pts_cols p).
Proof.
  induction s as [d n|c ss IH] using fspace_ind'; intros sh HF HO; inversion HF as [|? ? ? shs HFs]; subst; inversion HO as [? ? HN|? ? HOs]; subst.
  - destruct (equi_all _ _ HF) as (p & E & _). exists p. split; [easy|]. now apply equi_nodes_pn.
  - pose proof (fits_dim _ _ HF) as Hd.
    assert (exists ps, zipM (fun b s => equispaced_nodes_for_space b s) ss shs = Ok ps
       /\ Forall2 (fun s p => nodes_of s (pts_cols p) /\ wf_pts p /\ NoDup (pts_cols p)) ss ps) as (ps & Ez & HP).
    { clear HF HO Hd. induction HFs as [|s sh ss shs H1 HFs IHF]; [exists []; split; [reflexivity|constructor]|].
      inversion IH as [|? ? I1 I2]; subst. inversion HOs as [|? ? O1 O2]; subst.
      destruct (IHF I2 O2) as (ps & Ez & HP). destruct (equi_all s sh H1) as (p & Ep & _ & W & _ & _ & N & _).
      destruct (I1 sh H1 O1) as (p' & Ep' & HN). assert (p' = p) by congruence. subst p'.
      exists (p :: ps). split; [|constructor; auto]. cbn [zipM]. rewrite Ep. cbn [bind]. rewrite Ez. reflexivity. }
    destruct (tensor_nodes c ss ps HP) as (p & E & HN). exists p. split; [|easy].
    cbn [equispaced_nodes_for_space]. rewrite Hd. cbn [shape_dim]. rewrite Nat.eqb_refl. cbn [negb]. rewrite Ez. exact E.
Qed.

(** ** The bases of the code *)
Lemma zip_bases (f : fspace -> shape -> res basis) ss shs : Forall2 fits ss shs ->
  Forall (fun s => forall sh, fits s sh -> exists b, f s sh = Ok b /\ basis_of s b) ss ->
  exists bs, zipM (fun b s => f b s) ss shs = Ok bs /\ Forall2 basis_of ss bs.
Proof.
  intros HF. induction HF as [|s sh ss shs H1 HF IHF]; intros H; [exists []; split; [reflexivity|constructor]|].
  inversion H as [|? ? I1 I2]; subst. destruct (IHF I2) as (bs & Ez & HB). destruct (I1 sh H1) as (b & Eb & Hb).
  exists (b :: bs). split; [|now constructor]. cbn [zipM]. rewrite Eb. cbn [bind]. rewrite Ez. reflexivity.
Qed.
Lemma mono_basis_of s : forall sh, fits s sh -> exists b, monomial_basis_for_space s sh = Ok b /\ basis_of s b.
Proof.
  induction s as [d n|c ss IH] using fspace_ind'; intros sh HF; inversion HF as [|? ? ? shs HFs]; subst.
  - eexists. split; [reflexivity|constructor].
  - destruct (zip_bases monomial_basis_for_space ss shs HFs IH) as (bs & Ez & HB).
    cbn [monomial_basis_for_space]. rewrite Ez. eexists. split; [reflexivity|]. now constructor.
Qed.
Lemma onb_basis_of s : forall sh, fits s sh -> pn_dims 1 3 s -> exists b, orthonormal_basis_for_space s sh = Ok b /\ basis_of s b.
Proof.
  induction s as [d n|c ss IH] using fspace_ind'; intros sh HF HP; inversion HF as [|? ? ? shs HFs]; subst; inversion HP as [|? ? HPs]; subst.
  - eexists. split; [reflexivity|now constructor].
  - pose proof (fits_dim _ _ HF) as Hd. destruct (zip_bases orthonormal_basis_for_space ss shs HFs) as (bs & Ez & HB).
    { rewrite Forall_forall in *. auto. }
    cbn [orthonormal_basis_for_space]. rewrite Hd. cbn [shape_dim]. rewrite Nat.eqb_refl. cbn [negb]. rewrite Ez. eexists. split; [reflexivity|]. now constructor.
Qed.
Inductive pos_dims : fspace -> Prop :=
| pos_pn d n : (1 <= d)%nat -> pos_dims (PN d n)
| pos_tp c ss : Forall pos_dims ss -> pos_dims (TPSpace c ss).
Lemma basis_for_basis_of s : forall sh, fits s sh -> pos_dims s -> exists b, basis_for_space s sh = Ok b /\ basis_of s b.
Proof.
  induction s as [d n|c ss IH] using fspace_ind'; intros sh HF HP; inversion HF as [|? ? ? shs HFs]; subst; inversion HP as [|? ? HPs]; subst.
  - eexists. split; [reflexivity|]. destruct (Nat.leb_spec d 3); constructor. lia.
  - pose proof (fits_dim _ _ HF) as Hd. destruct (zip_bases basis_for_space ss shs HFs) as (bs & Ez & HB).
    { rewrite Forall_forall in *. auto. }
    cbn [basis_for_space]. rewrite Hd. cbn [shape_dim]. rewrite Nat.eqb_refl. cbn [negb]. rewrite Ez. eexists. split; [reflexivity|]. now constructor.
Qed.

(** ** The bases span the space *)
Lemma some_nodes s : exists xs, nodes_of s xs.
Proof.
  induction s as [d n|c ss IH] using fspace_ind'.
  - exists (map (map (fun k => - INR k - 2)) (gnitsam n d)). constructor.
    + rewrite map_length. apply gnitsam_length.
    + intros x Hx. apply in_map_iff in Hx. destruct Hx as (t & <- & Ht). apply gnitsam_in in Ht. destruct Ht as [L _].
      split; [now rewrite map_length|]. assert (P : forall k, 0 <= INR k) by (intros; apply pos_INR).
      pose proof inv10_10 as Q.
      pose proof inv10_12 as Q'.
      destruct d as [|[|[|[|d]]]]; try exact I.
      * apply nlen2 in L. destruct L as (i & j & ->). cbn [good_point map nth]. left. pose proof (P j). rewrite Rabs_left by lra. lra.
      * apply nlen3 in L. destruct L as (i & j & k & ->). cbn [good_point map nth]. pose proof (P j). pose proof (P k).
        split; left; rewrite Rabs_left by lra; lra.
    + apply lattice_poly_unisolvent. intros i j _ _ H. apply INR_eq. lra.
  - assert (exists xss, Forall2 nodes_of ss xss) as (xss & H).
    { induction IH as [|s ss (xs & H) _ (xss & IH)]; [exists []; constructor|]. exists (xs :: xss). now constructor. }
    exists (tp_tuples xss). now constructor.
Qed.
Lemma interpolant fs xs (u : nat -> R) : unisolvent fs xs ->
  exists c, forall i, (i < length xs)%nat -> lin fs c (pt xs i) = u i.
Proof.
  intros [L HI]. apply independent_inj in HI. rewrite L in HI. set (m := length xs) in *.
  destruct (@np_solve_succeeds (mkMat m m (V fs xs)) (mkMat m 1 (fun i _ => u i))) as (X & E); [reflexivity|reflexivity|exact HI|].
  apply np_solve_ok in E. destruct E as (_ & _ & _ & _ & _ & H). cbn [nrows ncols ent] in H.
  exists (fun j => ent X j 0%nat). intros i Hi. rewrite <- lin_V, L. exact (H i 0%nat Hi Nat.lt_0_1).
Qed.
Lemma modes_lin s b ms c x : modes_of s b ms -> length x = spatial_dim s -> good_point b x ->
  lin (map fst ms) c x = combo (map snd ms) c x.
Proof.
  intros (_ & _ & HM) Hx Hg. rewrite Forall_forall in HM. unfold lin, combo. rewrite !map_length. apply rsum_ext. intros j Hj. f_equal.
  unfold fn, valR. set (m0 := ((fun _ => Err IndexError) : bfun (T:=R), (fun _ : list R => 0)) : omode).
  change (fun _ : list R => Err IndexError) with (fst m0). change (fun _ : list R => 0) with (snd m0). rewrite !map_nth.
  destruct (HM (nth j ms m0)) as [_ Hv]; [now apply nth_In|].
  change (match fst (nth j ms m0) x with Ok v => v | Err _ => 0 end = snd (nth j ms m0) x). now rewrite Hv.
Qed.
Lemma combo_in_space s (ms : list omode) c : Forall (fun m : omode => in_space s (snd m)) ms -> in_space s (combo (map snd ms) c).
Proof.
  intros H. rewrite Forall_forall in H. unfold combo. rewrite map_length. apply in_space_rsum with (F := fun j x => c j * nth j (map snd ms) (fun _ => 0) x).
  intros k Hk. apply in_space_scal. apply (in_space_ext s (snd (nth k ms ((fun _ => Err IndexError), (fun _ => 0))))).
  - intros x _. symmetry. exact (f_equal (fun h => h x) (map_nth snd ms ((fun _ => Err IndexError) : bfun (T:=R), (fun _ : list R => 0)) k)).
  - apply H. now apply nth_In.
Qed.
Lemma basis_spans s b : basis_of s b -> exists ms, modes_of s b ms
  /\ (forall f, in_space s f -> exists c, forall x, length x = spatial_dim s -> f x = combo (map snd ms) c x).
Proof.
  intros HB. destruct (basis_modes s b HB) as (ms & HM). exists ms. split; [easy|]. intros f Hf.
  destruct (some_nodes s) as (xs & HN). destruct (uni_of s b xs HB HN) as (fs & Ef & _ & HU).
  assert (fs = map fst ms) as -> by (destruct HM as (E & _); rewrite E in Ef; congruence).
  destruct (interpolant _ xs (fun i => f (pt xs i)) HU) as (c & Hc). exists c. intros x Hx.
  destruct (nodes_of_dim s xs HN) as [_ Hd].
  assert (Z : f x + -1 * combo (map snd ms) c x = 0); [|lra].
  apply (nodes_of_zero s xs HN (fun x => f x + -1 * combo (map snd ms) c x)); [| |easy].
  - apply in_space_plus; [easy|]. apply in_space_scal, combo_in_space. destruct HM as (_ & _ & HM). eapply Forall_impl; [|exact HM]. now intros m [? _].
  - intros y Hy. rewrite <- (modes_lin s b ms c y HM); [|now apply Hd|eapply nodes_good; eauto].
    apply in_pt in Hy. destruct Hy as (i & Hi & ->). rewrite Hc by easy. ring.
Qed.


(** ** Points far from the tolerance strips *)
Lemma Forall_firstn {A} (P : A -> Prop) n l : Forall P l -> Forall P (firstn n l).
Proof. intros H. revert n. induction H; intros [|n]; cbn [firstn]; constructor; auto. Qed.
Lemma Forall_skipn {A} (P : A -> Prop) n l : Forall P l -> Forall P (skipn n l).
Proof. intros H. revert n. induction H; intros [|n]; cbn [skipn]; auto. Qed.
Lemma low_good s : forall b x, basis_of s b -> Forall (fun t => t <= -2) x -> length x = spatial_dim s -> good_point b x.
Proof.
  pose proof inv10_10 as Q. pose proof inv10_12 as Q'.
  induction s as [d n|c ss IH] using fspace_ind'; intros b x HB Hx Hl; inversion HB as [| |? ? bs HB']; subst.
  - exact I.
  - cbn [spatial_dim] in Hl. destruct d as [|[|[|[|d]]]]; try exact I.
    + apply len2 in Hl. destruct Hl as (r & s & ->). inversion Hx as [|? ? H1 H2]; subst. inversion H2; subst. cbn [good_point nth].
      left. rewrite Rabs_left by lra. lra.
    + apply len3 in Hl. destruct Hl as (r & s & t & ->). inversion Hx as [|? ? H1 H2]; subst. inversion H2 as [|? ? H3 H4]; subst. inversion H4; subst.
      cbn [good_point nth]. split; left; rewrite Rabs_left by lra; lra.
  - apply good_point_TP. clear HB. cbn [spatial_dim] in Hl. revert x Hx Hl.
    induction HB' as [|s b ss bs Hb HB' IHB]; intros x Hx Hl; [exact I|]. inversion IH as [|? ? I1 I2]; subst.
    change (sum_nat (map spatial_dim (s :: ss))) with (spatial_dim s + sum_nat (map spatial_dim ss))%nat in Hl.
    cbn [good_point_all]. rewrite (basis_of_dim s b Hb). split.
    + apply I1; [easy|now apply Forall_firstn|rewrite firstn_length; lia].
    + apply IHB; [easy|now apply Forall_skipn|rewrite skipn_length; lia].
Qed.
Lemma off_good s : forall b x, basis_of s b -> length x = spatial_dim s -> off_strips b x -> good_point b x.
Proof.
  induction s as [d n|c ss IH] using fspace_ind'; intros b x HB Hl Hx; inversion HB as [| |? ? bs HB']; subst.
  - exact I.
  - destruct d as [|[|[|[|d]]]]; try exact I; cbn [off_strips good_point] in *.
    + left. now apply Rlt_le.
    + split; left; easy.
  - apply good_point_TP. apply off_strips_TP in Hx. clear HB. cbn [spatial_dim] in Hl. revert x Hx Hl.
    induction HB' as [|s b ss bs Hb HB' IHB]; intros x Hx Hl; [exact I|]. inversion IH as [|? ? I1 I2]; subst.
    change (sum_nat (map spatial_dim (s :: ss))) with (spatial_dim s + sum_nat (map spatial_dim ss))%nat in Hl.
    cbn [good_point_all off_strips_all] in *. rewrite (basis_of_dim s b Hb) in *. destruct Hx as [H1 H2]. split.
    + apply I1; [easy|rewrite firstn_length; lia|easy].
    + apply IHB; [easy|easy|rewrite skipn_length; lia].
Qed.
Lemma nth_upd_cont x j i : exists h : R -> R, (forall t, nth i (upd x j t) 0 = h t) /\ forall t0, continuity_pt h t0.
Proof.
  revert j i. induction x as [|a x IH]; intros j i.
  - exists (fun _ => 0). split; [intros t; destruct j, i; reflexivity|]. intros t0. apply continuity_pt_const. now intros u v.
  - destruct j as [|j].
    + destruct i as [|i].
      * exists (fun t => t). split; [reflexivity|]. intros t0. apply derivable_continuous_pt, derivable_pt_id.
      * exists (fun _ => nth i x 0). split; [reflexivity|]. intros t0. apply continuity_pt_const. now intros u v.
    + destruct i as [|i].
      * exists (fun _ => a). split; [reflexivity|]. intros t0. apply continuity_pt_const. now intros u v.
      * destruct (IH j i) as (h & E & C). exists h. split; [exact E|exact C].
Qed.
Lemma locally_gt (h : R -> R) (c t0 : R) : continuity_pt h t0 -> c < h t0 -> locally t0 (fun t => c < h t).
Proof.
  intros C H. apply continuity_pt_filterlim in C. apply (C (fun y => c < y)). now apply open_gt.
Qed.
Lemma locally_abs_gt (h : R -> R) (c t0 : R) : continuity_pt h t0 -> c < Rabs (h t0) -> locally t0 (fun t => c < Rabs (h t)).
Proof.
  intros C H. apply (locally_gt (fun t => Rabs (h t))); [|easy]. apply (continuity_pt_comp h Rabs); [easy|]. apply Rcontinuity_abs.
Qed.
Lemma off_strips_open s : forall b x j, basis_of s b -> length x = spatial_dim s -> (j < length x)%nat -> off_strips b x ->
  locally (nth j x 0) (fun t => off_strips b (upd x j t)).
Proof.
  induction s as [d n|c ss IH] using fspace_ind'; intros b x j HB Hl Hj Hx; inversion HB as [| |? ? bs HB']; subst.
  - now apply filter_forall.
  - destruct d as [|[|[|[|d]]]]; try (now apply filter_forall); cbn [off_strips] in *.
    + destruct (nth_upd_cont x j 1) as (h & E & C).
      apply filter_imp with (fun t => / 10 ^ 12 < Rabs (h t - 1)); [intros t; now rewrite E|].
      apply (locally_abs_gt (fun t => h t - 1)); [|now rewrite <- E, upd_self].
      apply continuity_pt_minus; [apply C|]. apply continuity_pt_const. now intros u v.
    + destruct (nth_upd_cont x j 1) as (h & E & C). destruct (nth_upd_cont x j 2) as (k & E' & C'). destruct Hx as [H1 H2].
      apply filter_imp with (fun t => / 10 ^ 10 < Rabs (h t + k t) /\ / 10 ^ 10 < Rabs (k t - 1)); [intros t; now rewrite E, E'|].
      apply filter_and.
      * apply (locally_abs_gt (fun t => h t + k t)); [|now rewrite <- E, <- E', upd_self]. apply continuity_pt_plus; [apply C|apply C'].
      * apply (locally_abs_gt (fun t => k t - 1)); [|now rewrite <- E', upd_self]. apply continuity_pt_minus; [apply C'|]. apply continuity_pt_const. now intros u v.
  - apply off_strips_TP in Hx. apply filter_imp with (fun t => off_strips_all bs (upd x j t)); [intros t Ht; now apply off_strips_TP|].
    clear HB. cbn [spatial_dim] in Hl. revert x j Hx Hl Hj.
    induction HB' as [|s b ss bs Hb HB' IHB]; intros x j Hx Hl Hj; [now apply filter_forall|]. inversion IH as [|? ? I1 I2]; subst.
    change (sum_nat (map spatial_dim (s :: ss))) with (spatial_dim s + sum_nat (map spatial_dim ss))%nat in Hl.
    cbn [off_strips_all] in *. rewrite (basis_of_dim s b Hb) in *. destruct Hx as [H1 H2]. set (d := spatial_dim s) in *.
    pose proof (fun t => blocks_upd d [(sum_nat (map spatial_dim ss))] x j t ltac:(cbn [sum_nat fold_right]; lia) ltac:(cbn [sum_nat fold_right]; lia)) as BU.
    cbn [blocks] in BU. set (y := firstn d x) in *. set (z := skipn d x) in *.
    assert (Ly : length y = d) by (unfold y; rewrite firstn_length; lia). assert (Lz : length z = sum_nat (map spatial_dim ss)) by (unfold z; rewrite skipn_length; lia).
    assert (EX : x = y ++ z) by (symmetry; apply firstn_skipn). clearbody y z. subst x.
    destruct (Nat.lt_ge_cases j d) as [Hjd|Hjd].
    + rewrite app_nth1 by lia. apply filter_imp with (fun t => off_strips b (upd y j t)); [|apply I1; auto; lia].
      intros t Ht. rewrite upd_app_l by lia. pose proof (upd_length y j t) as LU. rewrite Ly in LU.
      rewrite <- LU, firstn_app_len, skipn_app_len. split; easy.
    + rewrite app_nth2 by lia. rewrite app_length in Hj.
      apply filter_imp with (fun t => off_strips_all bs (upd z (j - length y) t)); [|apply (IHB I2); auto; lia].
      intros t Ht. rewrite upd_app_r by lia. rewrite <- Ly at 1 2. rewrite firstn_app_len, skipn_app_len. split; easy.
Qed.
(** Polynomials that agree at all good points agree everywhere. *)
Lemma good_agree s b D f g : basis_of s b -> is_poly (spatial_dim s) D f -> is_poly (spatial_dim s) D g ->
  (forall x, length x = spatial_dim s -> good_point b x -> f x = g x) -> forall x, length x = spatial_dim s -> f x = g x.
Proof.
  intros HB Hf Hg H x Hx. assert (Z : f x + -1 * g x = 0); [|lra].
  assert (HI : inj_upto (fun k => - INR k - 2) D) by (intros i j _ _ E; apply INR_eq; lra).
  apply (lattice_poly_unisolvent _ (spatial_dim s) D HI (fun x => f x + -1 * g x)); [| |easy].
  - apply is_poly_plus; [easy|now apply is_poly_scal].
  - intros y Hy. pose proof (lattice_len _ _ _ y Hy) as Ly. rewrite H; [ring|easy|]. apply (low_good s b); [easy| |easy].
    apply in_map_iff in Hy. destruct Hy as (t & <- & _). apply Forall_forall. intros v Hv. apply in_map_iff in Hv. destruct Hv as (k & <- & _).
    pose proof (pos_INR k). lra.
Qed.
Lemma in_space_poly s f : in_space s f -> exists D, is_poly (spatial_dim s) D f.
Proof.
  intros (ts & A & B). exists (fold_right Nat.max 0%nat (map (fun t => total (snd t)) ts)). exists ts. split; [|exact B].
  clear B. induction A as [|t ts Ht A IH]; [constructor|]. cbn [map fold_right]. constructor.
  - split; [now apply space_exp_len|]. unfold total. lia.
  - eapply Forall_impl; [|exact IH]. cbv beta. intros u [? ?]. split; [easy|]. lia.
Qed.
Lemma basis_of_wf s : forall b, basis_of s b -> wf_basis b /\ onb_dims 1 3 b.
Proof.
  induction s as [d n|c ss IH] using fspace_ind'; intros b HB; inversion HB as [| |? ? bs HB']; subst.
  - split; constructor.
  - split; now constructor.
  - assert (H : Forall wf_basis bs /\ Forall (onb_dims 1 3) bs).
    { clear HB. induction HB' as [|s b ss bs Hb HB' IHB]; [split; constructor|]. inversion IH as [|? ? I1 I2]; subst.
      destruct (I1 b Hb), (IHB I2). split; constructor; auto. }
    rewrite <- (basis_of_dims ss bs HB'). destruct H. split; now constructor.
Qed.
