(** * Orthonormality of all orthonormal bases *)
From Coquelicot Require Import Coquelicot.
From Coq Require Import List Arith Bool ZArith Reals Lra Lia.
From Verif Require Import Py PyToolsModel ModelNd ModelShapes ModelSpaces ModelModes ModelBasis
  EnumFacts SpecIndex RSum IntFacts SpecPoly SpecPartial SpecGeometry SpecIntegral ProofNodeTuples
  ProofBasisIndex ProofTPCall ProofJacobi ProofJacobi2 ProofJacobiOrtho ProofPKDO ProofPKDOOrtho
  ProofMonomial ProofTPGrad ProofBasisDeriv.
Import ListNotations.
Local Open Scope R_scope.

(** Points off the tolerance strips, or on the faces where the collapsed coordinate is -1 anyway. *)
Fixpoint good_point (b : basis) (x : list R) {struct b} : Prop :=
  match b with
  | SimplexONB 2 _ => good2 (nth 0 x 0) (nth 1 x 0)
  | SimplexONB 3 _ => good3 (nth 0 x 0) (nth 1 x 0) (nth 2 x 0)
  | TPBasis bs _ =>
      (fix all (bs : list basis) (x : list R) : Prop :=
         match bs with
         | [] => True
         | b :: bs' => good_point b (firstn (basis_dim b) x) /\ all bs' (skipn (basis_dim b) x)
         end) bs x
  | _ => True
  end.
Fixpoint good_point_all (bs : list basis) (x : list R) : Prop :=
  match bs with
  | [] => True
  | b :: bs' => good_point b (firstn (basis_dim b) x) /\ good_point_all bs' (skipn (basis_dim b) x)
  end.
Lemma good_point_TP bs ds x : good_point (TPBasis bs ds) x <-> good_point_all bs x.
Proof.
  cbn [good_point]. revert x. induction bs as [|b bs IH]; intros x; [reflexivity|].
  cbn [good_point_all]. now rewrite IH.
Qed.

(** [b] is an orthonormal basis of simplex factors laid out on the factors of
    the shape. *)
Inductive onb_on : basis -> shape -> Prop :=
| oo_simplex d n : (1 <= d <= 3)%nat -> onb_on (SimplexONB d n) (Simplex d)
| oo_tp bs c k ss : Forall2 onb_on bs ss -> onb_on (TPBasis bs (map basis_dim bs)) (TPShape c k ss).

Lemma in_shape_dim b : forall s p, onb_on b s -> in_shape s p -> length p = basis_dim b.
Proof.
  induction b as [d n|d n|bs ds IH] using basis_ind'; intros s p H Hp; inversion H; subst.
  - exact (proj1 Hp).
  - apply in_shape_TP in Hp. cbn [basis_dim].
    match goal with H : Forall2 onb_on bs ss |- _ => rename H into HF end. clear H.
    revert p Hp IH. induction HF as [|b s bs ss Hb HF IHF]; intros p Hp IH.
    + simpl in Hp. now subst.
    + destruct Hp as (p1 & p2 & -> & H1 & H2). inversion IH; subst.
      cbn [map]. rewrite sum_nat_cons, app_length. f_equal; eauto.
Qed.

Definition omode := (bfun (T:=R) * (list R -> R))%type.

Definition onb_ok (b : basis) (s : shape) : Prop :=
  exists ms : list omode, functions Rops b = Ok (map fst ms)
    /\ Forall (fun m : omode => (exists D, is_poly (basis_dim b) D (snd m))
          /\ forall x, length x = basis_dim b -> good_point b x -> fst m x = Ok (snd m x)) ms
    /\ forall k l mk ml, nth_error ms k = Some mk -> nth_error ms l = Some ml ->
         is_int s (fun x => snd mk x * snd ml x) (if (k =? l)%nat then 1 else 0).

Lemma NoDup_map_int {A} (ids : list A) (F : A -> bfun (T:=R)) (P : A -> list R -> R) s :
  NoDup ids ->
  (forall i j, In i ids -> In j ids -> forall l : R, (i = j -> l = 1) -> (i <> j -> l = 0) ->
     is_int s (fun x => P i x * P j x) l) ->
  forall k l mk ml, nth_error (map (fun i => (F i, P i) : omode) ids) k = Some mk ->
    nth_error (map (fun i => (F i, P i) : omode) ids) l = Some ml ->
    is_int s (fun x => snd mk x * snd ml x) (if (k =? l)%nat then 1 else 0).
Proof.
  intros ND H k l mk ml Hk Hl. rewrite nth_error_map in Hk, Hl.
  destruct (nth_error ids k) as [i|] eqn:Ei; [|discriminate]. injection Hk as <-.
  destruct (nth_error ids l) as [j|] eqn:Ej; [|discriminate]. injection Hl as <-. cbn [snd].
  apply H; [eapply nth_error_In; eauto..| |].
  - intros ->. replace (k =? l)%nat with true; [easy|]. symmetry. apply Nat.eqb_eq.
    rewrite NoDup_nth_error in ND. apply ND; [|congruence].
    apply nth_error_Some. congruence.
  - intros Hne. destruct (Nat.eqb_spec k l) as [->|]; [|easy]. congruence.
Qed.

Lemma is_int_cast s f (l m : R) : is_int s f l -> l = m -> is_int s f m.
Proof. now intros H <-. Qed.

Lemma onb_ok_simplex d n : (1 <= d <= 3)%nat -> onb_ok (SimplexONB d n) (Simplex d).
Proof.
  intros Hd.
  set (F := match d with 1%nat => pkdo_1d Rops | 2%nat => pkdo_2d_fn Rops | _ => pkdo_3d_fn Rops end).
  set (P := fun (id : list nat) (x : list R) =>
     match d with
     | 1%nat => jp 0 0 (nth 0 id 0%nat) (nth 0 x 0)
     | 2%nat => phi2 (nth 0 id 0%nat) (nth 1 id 0%nat) (nth 0 x 0) (nth 1 x 0)
     | _ => phi3 (nth 0 id 0%nat) (nth 1 id 0%nat) (nth 2 id 0%nat) (nth 0 x 0) (nth 1 x 0) (nth 2 x 0)
     end).
  exists (map (fun id => (F id, P id) : omode) (simplex_mode_tuples d n)).
  split; [|split].
  - rewrite map_map. destruct d as [|[|[|[|d]]]]; try lia; reflexivity.
  - apply Forall_map_in. intros id Hid. cbn [basis_dim fst snd].
    apply gnitsam_in in Hid. destruct Hid as [Hl _]. unfold F, P. clear F P. split.
    + destruct d as [|[|[|[|d]]]]; try lia.
      * eexists. apply (jp_poly 1 0 0 (nth 0 id 0%nat) (fun x => nth 0 x 0)). apply is_poly_coord. lia.
      * eexists. apply phi2_poly.
      * eexists. apply phi3_poly.
    + intros x Hx Hg. destruct d as [|[|[|[|d]]]]; try lia.
      * apply len1 in Hx. destruct Hx as (r & ->). apply nlen1 in Hl. destruct Hl as (i & ->).
        cbn [pkdo_1d nth]. now rewrite jac0.
      * apply len2 in Hx. destruct Hx as (r & s & ->). apply nlen2 in Hl. destruct Hl as (i & j & ->).
        cbn [pkdo_2d_fn nth good_point] in *. now rewrite pkdo_2d_phi.
      * apply len3 in Hx. destruct Hx as (r & s & t & ->). apply nlen3 in Hl. destruct Hl as (i & j & k & ->).
        cbn [pkdo_3d_fn nth good_point] in *. now rewrite pkdo_3d_phi.
  - apply (NoDup_map_int (simplex_mode_tuples d n) F P).
    + apply gnitsam_NoDup.
    + intros id id' Hi Hi' l L1 L2. apply gnitsam_in in Hi. apply gnitsam_in in Hi'.
      destruct Hi as [Hi _], Hi' as [Hi' _]. cbn [is_int]. unfold P, F in *. clear P F.
      destruct d as [|[|[|[|d]]]]; try lia.
      * apply nlen1 in Hi. destruct Hi as (i & ->). apply nlen1 in Hi'. destruct Hi' as (i' & ->).
        cbn [nth]. eapply (is_int_cast (Simplex 1)); [apply jp0_ortho|]. unfold delta.
        destruct (Nat.eqb_spec i i'); [subst; symmetry; auto|]. symmetry. apply L2. congruence.
      * apply nlen2 in Hi. destruct Hi as (i & j & ->). apply nlen2 in Hi'. destruct Hi' as (i' & j' & ->).
        cbn [nth]. eapply (is_int_cast (Simplex 2)); [apply phi2_ortho|]. unfold delta.
        destruct (Nat.eqb_spec i i'), (Nat.eqb_spec j j');
          subst; first [rewrite L1 by easy; ring | rewrite L2 by congruence; ring].
      * apply nlen3 in Hi. destruct Hi as (i & j & k & ->). apply nlen3 in Hi'.
        destruct Hi' as (i' & j' & k' & ->).
        cbn [nth]. eapply (is_int_cast (Simplex 3)); [apply phi3_ortho|]. unfold delta.
        destruct (Nat.eqb_spec i i'), (Nat.eqb_spec j j'), (Nat.eqb_spec k k');
          subst; first [rewrite L1 by easy; ring | rewrite L2 by congruence; ring].
Qed.

(** ** Polynomials on blocks *)
Lemma monoval_first e x m : monoval (e ++ repeat O m) x = monoval e (firstn (length e) x).
Proof.
  revert x. induction e as [|k e IH]; intros [|t x]; cbn [app length firstn monoval]; try easy.
  - destruct m; reflexivity.
  - rewrite monoval_repeat0. reflexivity.
  - now rewrite IH.
Qed.
Lemma monoval_last e x n : (n <= length x)%nat -> monoval (repeat O n ++ e) x = monoval e (skipn n x).
Proof.
  revert x. induction n as [|n IH]; intros x H; [reflexivity|].
  destruct x as [|t x]; simpl in H; [lia|]. cbn [repeat app monoval skipn pow]. rewrite IH by lia. ring.
Qed.

Lemma polyval_ext_map (g : list nat -> list nat) ts x y :
  (forall t, In t ts -> monoval (g (snd t)) x = monoval (snd t) y) ->
  polyval (map (fun t => (fst t, g (snd t))) ts) x = polyval ts y.
Proof.
  intros H. unfold polyval. induction ts as [|t ts IH]; [reflexivity|].
  cbn [map fold_right fst snd]. rewrite H by now left. rewrite IH; [easy|]. intros; apply H; now right.
Qed.

Lemma is_poly_first n m D f : is_poly n D f -> is_poly (n + m) D (fun x => f (firstn n x)).
Proof.
  intros (ts & H1 & H2). exists (map (fun t => (fst t, snd t ++ repeat O m)) ts).
  rewrite Forall_forall in H1. split.
  - apply Forall_map_in. intros t Ht. cbn [snd]. destruct (H1 t Ht) as [L S].
    rewrite app_length, repeat_length, L, fold_right_app, sum_repeat0. split; [easy|exact S].
  - intros x Hx. rewrite H2 by (rewrite firstn_length; lia). symmetry.
    apply (polyval_ext_map (fun e => e ++ repeat O m)). intros t Ht. rewrite monoval_first.
    f_equal. f_equal. now apply H1.
Qed.
Lemma is_poly_last n m D f : is_poly m D f -> is_poly (n + m) D (fun x => f (skipn n x)).
Proof.
  intros (ts & H1 & H2). exists (map (fun t => (fst t, repeat O n ++ snd t)) ts).
  rewrite Forall_forall in H1. split.
  - apply Forall_map_in. intros t Ht. cbn [snd]. destruct (H1 t Ht) as [L S].
    rewrite app_length, repeat_length, L, fold_right_app. split; [easy|].
    clear -S. induction n; simpl; auto.
  - intros x Hx. rewrite H2 by (rewrite skipn_length; lia). symmetry.
    apply (polyval_ext_map (fun e => repeat O n ++ e)). intros t Ht. apply monoval_last. lia.
Qed.

(** ** Tensor products *)
Fixpoint tpphi (ml : list omode) (xs : list (list R)) : R :=
  match ml, xs with
  | m :: ml', x :: xs' => snd m x * tpphi ml' xs'
  | _, _ => 1
  end.
Fixpoint dprod (i j : list nat) : R :=
  match i, j with
  | a :: i', b :: j' => (if (a =? b)%nat then 1 else 0) * dprod i' j'
  | _, _ => 1
  end.
Lemma dprod_eq i j : length i = length j -> dprod i j = if tuple_eqb i j then 1 else 0.
Proof.
  revert j. induction i as [|a i IH]; intros [|b j] H; try discriminate; [reflexivity|].
  simpl in H. cbn [dprod tuple_eqb]. rewrite IH by lia.
  destruct (a =? b)%nat, (tuple_eqb i j); cbn [andb]; ring.
Qed.

Lemma ints_prod bs ss mss idx idx' ml ml' :
  Forall2 onb_on bs ss ->
  Forall2 (fun (s : shape) (ms : list omode) => forall k l mk ml, nth_error ms k = Some mk -> nth_error ms l = Some ml ->
         is_int s (fun x => snd mk x * snd ml x) (if (k =? l)%nat then 1 else 0)) ss mss ->
  selects mss idx ml -> selects mss idx' ml' ->
  is_ints ss (fun x => tpphi ml (blocks (map basis_dim bs) x) * tpphi ml' (blocks (map basis_dim bs) x))
    (dprod idx idx').
Proof.
  intros HO. revert mss idx idx' ml ml'. induction HO as [|b s bs ss Hb HO IH]; intros mss idx idx' ml ml' HI Hs Hs'.
  - inversion HI; subst. inversion Hs; subst. inversion Hs'; subst. simpl. ring.
  - inversion HI as [|? ms ? mss' I1 I2]; subst.
    inversion Hs as [|? ? i idx1 m ml1 Hi Hs1]; subst.
    inversion Hs' as [|? ? i' idx1' m' ml1' Hi' Hs1']; subst. cbn [dprod].
    eapply is_ints_cons; [apply (I1 i i' m m' Hi Hi')|apply (IH _ _ _ _ _ I2 Hs1 Hs1')|].
    intros p q Hp Hq. cbn [map blocks tpphi].
    pose proof (in_shape_dim b s p Hb Hp) as Hl. rewrite <- Hl, firstn_app_len, skipn_app_len. ring.
Qed.

Lemma tpphi_ok bs mss idx ml x :
  Forall2 (fun b (ms : list omode) => Forall (fun m : omode => (exists D, is_poly (basis_dim b) D (snd m))
          /\ forall x, length x = basis_dim b -> good_point b x -> fst m x = Ok (snd m x)) ms) bs mss ->
  selects mss idx ml -> length x = sum_nat (map basis_dim bs) -> good_point_all bs x ->
  exists vs, block_values (map basis_dim bs) (map fst ml) (blocks (map basis_dim bs) x) vs
    /\ fold_right Rmult 1 vs = tpphi ml (blocks (map basis_dim bs) x).
Proof.
  intros H. revert idx ml x. induction H as [|b ms bs mss Hb H IH]; intros idx ml x Hs Hx Hg.
  - inversion Hs; subst. exists []. split; constructor.
  - inversion Hs as [|? ? i idx1 m ml1 Hi Hs1]; subst. cbn [map] in Hx. rewrite sum_nat_cons in Hx.
    destruct Hg as [Hg1 Hg2].
    destruct (IH idx1 ml1 (skipn (basis_dim b) x) Hs1) as (vs & B & E); [rewrite skipn_length; lia|easy|].
    rewrite Forall_forall in Hb. apply nth_error_In in Hi. destruct (Hb m Hi) as [_ Hm].
    assert (Hf : length (firstn (basis_dim b) x) = basis_dim b) by (rewrite firstn_length; lia).
    exists (snd m (firstn (basis_dim b) x) :: vs). cbn [map blocks tpphi fold_right]. split.
    + constructor; auto.
    + now rewrite E.
Qed.

Lemma tpphi_poly bs mss idx ml :
  Forall2 (fun b (ms : list omode) => Forall (fun m : omode => (exists D, is_poly (basis_dim b) D (snd m))
          /\ forall x, length x = basis_dim b -> good_point b x -> fst m x = Ok (snd m x)) ms) bs mss ->
  selects mss idx ml ->
  exists D, is_poly (sum_nat (map basis_dim bs)) D (fun x => tpphi ml (blocks (map basis_dim bs) x)).
Proof.
  intros H. revert idx ml. induction H as [|b ms bs mss Hb H IH]; intros idx ml Hs.
  - inversion Hs; subst. exists O. exact (is_poly_const _ _ 1).
  - inversion Hs as [|? ? i idx1 m ml1 Hi Hs1]; subst.
    destruct (IH idx1 ml1 Hs1) as (D2 & P2).
    rewrite Forall_forall in Hb. apply nth_error_In in Hi. destruct (Hb m Hi) as [(D1 & P1) _].
    exists (D1 + D2)%nat. cbn [map blocks tpphi]. rewrite sum_nat_cons.
    apply is_poly_mult; [now apply is_poly_first|now apply (is_poly_last (basis_dim b)) in P2].
Qed.

Lemma onb_ok_tp bs c k ss : Forall2 onb_on bs ss -> Forall2 onb_ok bs ss ->
  onb_ok (TPBasis bs (map basis_dim bs)) (TPShape c k ss).
Proof.
  intros HO H. unfold onb_ok in H.
  assert (exists mss, Forall2 (fun b (ms : list omode) => functions Rops b = Ok (map fst ms)) bs mss
    /\ Forall2 (fun b (ms : list omode) => Forall (fun m : omode => (exists D, is_poly (basis_dim b) D (snd m))
          /\ forall x, length x = basis_dim b -> good_point b x -> fst m x = Ok (snd m x)) ms) bs mss
    /\ Forall2 (fun (s : shape) (ms : list omode) => forall k l mk ml, nth_error ms k = Some mk -> nth_error ms l = Some ml ->
         is_int s (fun x => snd mk x * snd ml x) (if (k =? l)%nat then 1 else 0)) ss mss)
    as (mss & HF & HM & HI).
  { clear HO. induction H as [|b s bs ss (ms & H1 & H2 & H3) H (mss & A1 & A2 & A3)].
    - exists []. repeat split; constructor.
    - exists (ms :: mss). repeat split; constructor; auto. }
  clear H. set (dims := map basis_dim bs).
  exists (map (fun idx => (tp_call Rops dims (map fst (sel_parts mss idx)),
                           fun x => tpphi (sel_parts mss idx) (blocks dims x)) : omode)
              (enumF (map (@length _) mss))).
  assert (EL : map (@length _) (map (map (@fst (bfun (T:=R)) (list R -> R))) mss) = map (@length _) mss).
  { rewrite map_map. apply map_ext. intros; apply map_length. }
  assert (SE : forall idx, In idx (enumF (map (@length _) mss)) ->
            exists ml, selects mss idx ml /\ sel_parts mss idx = ml).
  { intros idx Hi. apply enumF_in in Hi. destruct (selects_exists mss idx Hi) as (ml & Hs).
    exists ml. split; [easy|]. now apply sel_parts_ok. }
  split; [|split].
  - rewrite map_map. cbn [fst].
    assert (HF' : mapM (functions Rops) bs = Ok (map (map fst) mss)).
    { apply mapM_Ok_Forall2. clear -HF. induction HF; cbn [map]; constructor; auto. }
    rewrite (functions_tp_eq Rops bs dims _ HF'). f_equal. unfold tp_functions. rewrite EL.
    apply map_ext_in. intros idx Hi. destruct (SE idx Hi) as (ml & Hs & ->).
    now rewrite (selects_parts _ _ _ (selects_map fst _ _ _ Hs)).
  - apply Forall_map_in. intros idx Hi. destruct (SE idx Hi) as (ml & Hs & ->). cbn [fst snd basis_dim].
    fold dims. split; [eapply tpphi_poly; eauto|].
    intros x Hx Hg. apply good_point_TP in Hg.
    destruct (tpphi_ok bs mss idx ml x HM Hs Hx Hg) as (vs & B & E). fold dims in B, E.
    rewrite <- (blocks_concat dims x Hx) at 1. rewrite (tp_call_R _ _ _ _ B). now rewrite E.
  - apply (NoDup_map_int (enumF (map (@length _) mss))
             (fun idx => tp_call Rops dims (map fst (sel_parts mss idx)))
             (fun idx x => tpphi (sel_parts mss idx) (blocks dims x))).
    + apply enumF_NoDup.
    + intros i j Hi Hj l L1 L2. destruct (SE i Hi) as (mi & Si & ->). destruct (SE j Hj) as (mj & Sj & ->).
      apply is_int_TP.
      pose proof (ints_prod bs ss mss i j mi mj HO HI Si Sj) as HP. fold dims in HP.
      rewrite dprod_eq in HP.
      * destruct (tuple_eqb i j) eqn:E.
        -- apply tuple_eqb_eq in E. rewrite (L1 E). exact HP.
        -- assert (i <> j) by (intros ->; rewrite (proj2 (tuple_eqb_eq j j) eq_refl) in E; discriminate).
           rewrite (L2 H). exact HP.
      * apply selects_valid, Forall2_length in Si. apply selects_valid, Forall2_length in Sj. congruence.
Qed.

Lemma onb_ok_all b : forall s, onb_on b s -> onb_ok b s.
Proof.
  induction b as [d n|d n|bs ds IH] using basis_ind'; intros s H; inversion H; subst.
  - now apply onb_ok_simplex.
  - apply onb_ok_tp; [easy|].
    match goal with H : Forall2 onb_on bs ss |- _ => rename H into HF end. clear H.
    induction HF; constructor; inversion IH; subst; auto.
Qed.

(** The code's constructor yields such bases. *)
Lemma onb_for_space_on s : forall sh b, fits s sh -> pn_dims 1 3 s ->
  orthonormal_basis_for_space s sh = Ok b -> onb_on b sh /\ basis_dim b = spatial_dim s.
Proof.
  induction s as [d n|c bs IH] using fspace_ind'; intros sh b Hf Hp E; inversion Hf; subst; inversion Hp; subst.
  - cbn in E. injection E as <-. split; [now constructor|reflexivity].
  - cbn [orthonormal_basis_for_space] in E.
    match type of E with (if ?c then _ else _) = _ => destruct c eqn:EC; [discriminate|] end.
    match goal with H : Forall2 fits bs ?x |- _ => rename H into HF; rename x into shs end.
    match goal with H : Forall (pn_dims 1 3) bs |- _ => rename H into HP end.
    destruct (zipM _ bs shs) as [l|] eqn:Ez; [|discriminate]. cbn [bind] in E. injection E as <-.
    assert (HH : Forall2 onb_on l shs /\ map basis_dim l = map spatial_dim bs).
    { clear -IH HF HP Ez. revert l Ez IH HP. induction HF as [|s sh bs shs H1 HF IHF]; intros l Ez IH HP.
      - cbn in Ez. injection Ez as <-. split; [constructor|reflexivity].
      - cbn [zipM] in Ez. destruct (orthonormal_basis_for_space s sh) as [b|] eqn:Eb; [|discriminate].
        cbn [bind] in Ez. destruct (zipM _ bs shs) as [l'|] eqn:Ez'; [|discriminate].
        injection Ez as <-. inversion IH; subst. inversion HP; subst.
        destruct (IHF l' eq_refl) as [A B]; auto.
        match goal with H : forall sh b, fits s sh -> _ |- _ => destruct (H sh b) as [C D]; auto end.
        split; [constructor; auto|]. cbn [map]. congruence. }
    destruct HH as [H1 H2]. unfold mk_TensorProductBasis. rewrite <- H2. split; [now constructor|].
    cbn [basis_dim spatial_dim]. rewrite H2. reflexivity.
Qed.
