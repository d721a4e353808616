(** * Gradients and derivatives of tensor-product bases *)
From Coquelicot Require Import Coquelicot.
From Coq Require Import List Arith Bool ZArith Reals Lra Lia.
From Verif Require Import Py PyToolsModel ModelNd ModelShapes ModelSpaces ModelModes ModelBasis
  EnumFacts SpecIndex RSum IntFacts SpecPoly ProofNodeTuples ProofBasisIndex ProofTPCall ProofPKDO.
Import ListNotations.
Local Open Scope R_scope.

Definition rprod (l : list R) : R := fold_right Rmult 1 l.
Lemma rprod_app l1 l2 : rprod (l1 ++ l2) = rprod l1 * rprod l2.
Proof. unfold rprod. induction l1; simpl; [ring|]. rewrite IHl1. ring. Qed.

(** ** The gradient call *)
Fixpoint rmul2 (l1 l2 : list R) : list R :=
  match l1, l2 with a :: r, b :: s => a * b :: rmul2 r s | _, _ => [] end.

Lemma imul_from_ok comps pre mid post : length mid = length comps ->
  imul_from Rops (length pre) comps (pre ++ mid ++ post) = Ok (pre ++ rmul2 mid comps ++ post).
Proof.
  intros H. induction pre as [|a pre IH]; cbn [length imul_from app].
  - revert mid H. induction comps as [|c comps IH]; intros [|m mid] H; try discriminate; cbn [imul_head app rmul2].
    + reflexivity.
    + simpl in H. cbn [app]. rewrite IH by lia. reflexivity.
  - rewrite IH. reflexivity.
Qed.

Lemma rmul2_length l1 l2 : length l1 = length l2 -> length (rmul2 l1 l2) = length l1.
Proof. revert l2; induction l1; intros [|b l2]; simpl; intros H; try lia. rewrite IHl1; lia. Qed.

Inductive comp_values (nders : nat) : list nat -> list (dfun (T:=R)) -> list (list R) -> list (list R) -> Prop :=
| cv_nil : comp_values nders [] [] [] []
| cv_f d dims f fs x xs v cs : length x = d -> f x = Ok v -> comp_values nders dims fs xs cs ->
    comp_values nders (d :: dims) (inl f :: fs) (x :: xs) (repeat v nders :: cs)
| cv_g d dims g fs x xs c cs : length x = d -> g x = Ok c -> length c = nders ->
    comp_values nders dims fs xs cs ->
    comp_values nders (d :: dims) (inr g :: fs) (x :: xs) (c :: cs).

Lemma tp_grad_inner_ok nders dims fs xs cs : comp_values nders dims fs xs cs ->
  forall pre rp mid rq, length mid = nders ->
  tp_grad_inner Rops (pre ++ concat xs) nders (length rp) (length pre) dims fs (rp ++ mid ++ rq)
  = Ok (rp ++ fold_left rmul2 cs mid ++ rq).
Proof.
  induction 1 as [|d dims f fs x xs v cs Hd Hf H IH|d dims g fs x xs c cs Hd Hg Hc H IH];
    intros pre rp mid rq Hm; cbn [tp_grad_inner concat fold_left]; [reflexivity| |];
    rewrite skipn_app_len, <- Hd, firstn_app_len.
  - rewrite Hf. cbn [bind]. rewrite imul_from_ok by (rewrite repeat_length; lia). cbn [bind].
    rewrite app_assoc, <- app_length. apply IH.
    rewrite rmul2_length; [lia|rewrite repeat_length; lia].
  - rewrite Hg. cbn [bind]. rewrite Hc, Nat.eqb_refl. cbn [bind]. rewrite imul_from_ok by lia. cbn [bind].
    rewrite app_assoc, <- app_length. apply IH. rewrite rmul2_length; lia.
Qed.

Lemma rmul2_repeat mid v : rmul2 mid (repeat v (length mid)) = map (fun m => m * v) mid.
Proof. induction mid; simpl; congruence. Qed.

Lemma fold_rmul2_const n vs mid : length mid = n ->
  fold_left rmul2 (map (fun v => repeat v n) vs) mid = map (fun m => m * rprod vs) mid.
Proof.
  revert mid. induction vs as [|v vs IH]; intros mid H; cbn [map fold_left].
  - rewrite <- (map_id mid) at 1. apply map_ext. intros; unfold rprod; simpl; ring.
  - subst n. rewrite rmul2_repeat. rewrite IH by apply map_length. rewrite map_map.
    apply map_ext. intros. unfold rprod. simpl. ring.
Qed.

Lemma fold_rmul2_mixed n vpre c vpost : length c = n ->
  fold_left rmul2 (map (fun v => repeat v n) vpre ++ c :: map (fun v => repeat v n) vpost) (repeat 1 n)
  = map (fun y => rprod vpre * y * rprod vpost) c.
Proof.
  intros H. rewrite fold_left_app, fold_rmul2_const by apply repeat_length. cbn [fold_left].
  assert (E : rmul2 (map (fun m => m * rprod vpre) (repeat 1 n)) c = map (fun y => rprod vpre * y) c).
  { clear -H. revert n H. induction c as [|y c IH]; intros [|n] H; try discriminate; [reflexivity|].
    simpl in H. cbn [repeat map rmul2]. rewrite IH by lia. f_equal. ring. }
  rewrite E, fold_rmul2_const by (rewrite map_length; easy). now rewrite map_map.
Qed.

(** Expected gradient: block i is P * c_i * (product of the other values). *)
Fixpoint gradl (P : R) (vs : list R) (cs : list (list R)) : list R :=
  match vs, cs with
  | v :: vs', c :: cs' => map (fun y => P * y * rprod vs') c ++ gradl (P * v) vs' cs'
  | _, _ => []
  end.

Fixpoint ders_list (fl : list (bfun (T:=R))) (gl : list (bgrad (T:=R))) : list (list (dfun (T:=R))) :=
  match fl, gl with
  | f :: fl', g :: gl' => (inr g :: map inl fl') :: map (cons (inl f)) (ders_list fl' gl')
  | _, _ => []
  end.

Inductive grad_values : list nat -> list (bfun (T:=R)) -> list (bgrad (T:=R)) ->
  list (list R) -> list R -> list (list R) -> Prop :=
| gv_nil : grad_values [] [] [] [] [] []
| gv_cons d dims f fs g gs x xs v vs c cs :
    length x = d -> f x = Ok v -> g x = Ok c -> length c = d -> grad_values dims fs gs xs vs cs ->
    grad_values (d :: dims) (f :: fs) (g :: gs) (x :: xs) (v :: vs) (c :: cs).

Lemma grad_values_block dims fs gs xs vs cs : grad_values dims fs gs xs vs cs -> block_values dims fs xs vs.
Proof. induction 1; econstructor; eauto. Qed.

Lemma block_comp n dims fs xs vs : block_values dims fs xs vs ->
  comp_values n dims (map inl fs) xs (map (fun v => repeat v n) vs).
Proof. induction 1; cbn [map]; constructor; auto. Qed.

Lemma comp_values_app n d1 f1 x1 c1 d2 f2 x2 c2 :
  comp_values n d1 f1 x1 c1 -> comp_values n d2 f2 x2 c2 ->
  comp_values n (d1 ++ d2) (f1 ++ f2) (x1 ++ x2) (c1 ++ c2).
Proof. induction 1; intros HH; cbn [app]; auto; constructor; auto. Qed.

Lemma block_values_app {T} d1 f1 x1 c1 d2 f2 (x2 : list (list T)) c2 :
  block_values d1 f1 x1 c1 -> block_values d2 f2 x2 c2 ->
  block_values (d1 ++ d2) (f1 ++ f2) (x1 ++ x2) (c1 ++ c2).
Proof. induction 1; intros HH; cbn [app]; auto; constructor; auto. Qed.

Lemma sum_nat_cons d l : sum_nat (d :: l) = (d + sum_nat l)%nat.
Proof. reflexivity. Qed.
Lemma sum_nat_app l1 l2 : sum_nat (l1 ++ l2) = (sum_nat l1 + sum_nat l2)%nat.
Proof. induction l1; simpl; auto. unfold sum_nat in *. simpl. lia. Qed.

Lemma tp_grad_outer_ok dims fs gs xs vs cs : grad_values dims fs gs xs vs cs ->
  forall dpre fpre xpre vpre rp, block_values dpre fpre xpre vpre -> length rp = sum_nat dpre ->
  tp_grad_outer Rops (concat (xpre ++ xs)) (dpre ++ dims) (length dpre) (length rp)
    (map (app (map inl fpre)) (ders_list fs gs)) (rp ++ repeat 1 (sum_nat dims))
  = Ok (rp ++ gradl (rprod vpre) vs cs).
Proof.
  induction 1 as [|d dims f fs g gs x xs v vs c cs Hx Hf Hg Hc H IH];
    intros dpre fpre xpre vpre rp Hpre Hrp.
  - cbn [ders_list map tp_grad_outer gradl]. reflexivity.
  - cbn [ders_list map tp_grad_outer].
    unfold getitem. rewrite nth_error_app2, Nat.sub_diag by lia. cbn [nth_error bind].
    rewrite sum_nat_cons, repeat_app.
    assert (CV : comp_values d (dpre ++ d :: dims) (map inl fpre ++ inr g :: map inl fs)
                  (xpre ++ x :: xs) (map (fun v => repeat v d) vpre ++ c :: map (fun v => repeat v d) vs)).
    { apply comp_values_app; [now apply block_comp|]. constructor; auto.
      apply block_comp. eapply grad_values_block; eauto. }
    pose proof (tp_grad_inner_ok _ _ _ _ _ CV [] rp (repeat 1 d) (repeat 1 (sum_nat dims))
                  ltac:(apply repeat_length)) as E.
    cbn [app length] in E. change (list R -> res (list R)) with (bgrad (T:=R)) in E. rewrite E. cbn [bind].
    rewrite fold_rmul2_mixed by easy.
    set (blk := map (fun y => rprod vpre * y * rprod vs) c).
    specialize (IH (dpre ++ [d]) (fpre ++ [f]) (xpre ++ [x]) (vpre ++ [v]) (rp ++ blk)).
    assert (Hpre' : block_values (dpre ++ [d]) (fpre ++ [f]) (xpre ++ [x]) (vpre ++ [v])).
    { apply block_values_app; [easy|]. constructor; auto. constructor. }
    specialize (IH Hpre'). rewrite !app_length in IH.
    assert (Hb : length blk = d) by (unfold blk; rewrite map_length; easy).
    rewrite Hb in IH. cbn [length] in IH.
    rewrite sum_nat_app in IH. specialize (IH ltac:(unfold sum_nat at 2; simpl; lia)).
    replace (length dpre + 1)%nat with (S (length dpre)) in IH by lia.
    rewrite <- !app_assoc in IH. cbn [app] in IH.
    rewrite map_map.
    rewrite (map_ext (fun l => map inl fpre ++ inl f :: l) (app (map inl (fpre ++ [f]))))
      by (intros l; rewrite map_app, <- app_assoc; reflexivity).
    etransitivity; [exact IH|]. cbn [gradl].
    replace (rprod (vpre ++ [v])) with (rprod vpre * v) by (rewrite rprod_app; unfold rprod; simpl; ring).
    reflexivity.
Qed.

Lemma tp_grad_call_ok dims fs gs xs vs cs : grad_values dims fs gs xs vs cs ->
  tp_grad_call Rops dims (ders_list fs gs) (concat xs) = Ok (gradl 1 vs cs).
Proof.
  intros H. unfold tp_grad_call.
  rewrite (block_values_len _ _ _ _ (grad_values_block _ _ _ _ _ _ H)), Nat.eqb_refl. cbn [negb].
  pose proof (tp_grad_outer_ok _ _ _ _ _ _ H [] [] [] [] [] (bv_nil) eq_refl) as E.
  rewrite <- (map_id (ders_list fs gs)). exact E.
Qed.

(** ** The derivative tuples built by [gradients] *)
Lemma wandering_S n : wandering_element (S n) =
  (1%nat :: repeat 0%nat n) :: map (cons 0%nat) (wandering_element n).
Proof.
  unfold wandering_element. cbn [seq map repeat app]. f_equal.
  - f_equal. f_equal. lia.
  - rewrite map_map, <- seq_shift, map_map. apply map_ext. intros i. cbn [repeat app].
    do 3 f_equal. f_equal. lia.
Qed.

Definition pick_d (is_deriv : nat) (fg : list (bfun (T:=R)) * list (bgrad (T:=R))) (i : nat) : res (dfun (T:=R)) :=
  match is_deriv with
  | 0%nat => let* f := getitem (fst fg) i in Ok (inl f)
  | _ => let* g := getitem (snd fg) i in Ok (inr g)
  end.
Definition zip_d indicator fss gss mid :=
  zipM (fun (p : nat * (list (bfun (T:=R)) * list (bgrad (T:=R)))) i => pick_d (fst p) (snd p) i)
       (combine indicator (combine fss gss)) mid.

Lemma zip_d_zero fss gss idx fl : length fss = length gss -> selects fss idx fl ->
  zip_d (repeat 0%nat (length fss)) fss gss idx = Ok (map inl fl).
Proof.
  intros HL H. revert gss HL. induction H as [|fs fss i idx f fl Hf H IH]; intros [|gs gss] HL; try discriminate; [reflexivity|].
  cbn [length repeat]. unfold zip_d in *. cbn [combine zipM fst snd pick_d].
  unfold getitem at 1. rewrite Hf. cbn [bind]. rewrite IH by (simpl in HL; lia). reflexivity.
Qed.

Lemma zip_ders fss gss idx fl gl : selects fss idx fl -> selects gss idx gl ->
  mapM (fun ind => zip_d ind fss gss idx) (wandering_element (length fss)) = Ok (ders_list fl gl).
Proof.
  intros H. revert gss gl. induction H as [|fs fss i idx f fl Hf H IH]; intros gss gl Hg;
    inversion Hg as [|gs gss' ? ? g gl' Hgi Hg']; subst; [reflexivity|].
  cbn [length]. rewrite wandering_S. cbn [mapM ders_list].
  unfold zip_d at 1. cbn [combine zipM fst snd pick_d]. unfold getitem at 1. rewrite Hgi. cbn [bind].
  assert (HL : length fss = length gss').
  { apply selects_valid in H. apply selects_valid in Hg'. apply Forall2_length in H. apply Forall2_length in Hg'.
    rewrite map_length in H, Hg'. congruence. }
  pose proof (zip_d_zero fss gss' idx fl HL H) as Z. unfold zip_d in Z. rewrite Z. cbn [bind].
  specialize (IH gss' gl' Hg').
  assert (E : mapM (fun ind => zip_d ind (fs :: fss) (gs :: gss') (i :: idx))
                (map (cons 0%nat) (wandering_element (length fss)))
              = Ok (map (cons (inl f)) (ders_list fl gl'))).
  { revert IH. generalize (ders_list fl gl'). generalize (wandering_element (length fss)).
    induction l as [|ind l IHl]; intros ds E; cbn [mapM map] in *.
    - injection E as <-. reflexivity.
    - destruct (zip_d ind fss gss' idx) as [z|] eqn:Ez; [|discriminate].
      cbn [bind] in E. destruct (mapM _ l) as [zs|] eqn:Ezs; [|discriminate].
      injection E as <-. rewrite (IHl zs eq_refl).
      unfold zip_d at 1. cbn [combine zipM fst snd pick_d]. unfold getitem at 1. rewrite Hf. cbn [bind].
      unfold zip_d in Ez. rewrite Ez. reflexivity. }
  rewrite E. reflexivity.
Qed.

Definition sel_parts {A} (lists : list (list A)) (idx : list nat) : list A :=
  match zipM (fun fs i => getitem fs i) lists idx with Ok p => p | Err _ => [] end.
Lemma sel_parts_ok {A} (lists : list (list A)) idx p : selects lists idx p -> sel_parts lists idx = p.
Proof. intros H. unfold sel_parts. now rewrite (selects_parts _ _ _ H). Qed.

Definition tp_gradients (dims : list nat) fss gss : list (bgrad (T:=R)) :=
  map (fun idx => tp_grad_call Rops dims (ders_list (sel_parts fss idx) (sel_parts gss idx)))
      (enumF (map (@length _) fss)).

Lemma gradients_tp_eq bs dims fss gss :
  mapM (functions Rops) bs = Ok fss -> mapM (gradients Rops) bs = Ok gss ->
  map (@length _) fss = map (@length _) gss ->
  gradients Rops (TPBasis bs dims) = Ok (tp_gradients dims fss gss).
Proof.
  intros H1 H2 HL. cbn [gradients]. rewrite H1. cbn [bind]. rewrite H2. cbn [bind].
  unfold mode_index_tuples. rewrite rev_gnitb_rev. apply mapM_Ok.
  intros idx Hidx. apply enumF_in in Hidx.
  destruct (selects_exists fss idx Hidx) as (fl & Hf).
  rewrite HL in Hidx. destruct (selects_exists gss idx Hidx) as (gl & Hg).
  rewrite (sel_parts_ok _ _ _ Hf), (sel_parts_ok _ _ _ Hg).
  pose proof (zip_ders fss gss idx fl gl Hf Hg) as E. unfold zip_d, pick_d in E.
  assert (Hbs : length bs = length fss) by (apply mapM_length in H1; congruence).
  rewrite Hbs. rewrite E. reflexivity.
Qed.

Lemma tp_gradients_nth dims fss gss idx fl gl : selects fss idx fl -> selects gss idx gl ->
  nth_error (tp_gradients dims fss gss) (ravelF (map (@length _) fss) idx)
  = Some (tp_grad_call Rops dims (ders_list fl gl)).
Proof.
  intros Hf Hg. pose proof (selects_valid _ _ _ Hf) as Hv.
  unfold tp_gradients. rewrite nth_error_map, enumF_nth by (now apply ravelF_lt).
  rewrite unravelF_ravelF by easy. cbn [option_map].
  now rewrite (sel_parts_ok _ _ _ Hf), (sel_parts_ok _ _ _ Hg).
Qed.
