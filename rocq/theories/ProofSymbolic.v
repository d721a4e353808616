(** * Evaluating the generic code: an evaluation that respects the operations commutes with
    every basis function, gradient and derivative (C52). *)
From Coq Require Import List Arith Bool ZArith Reals Lia Lra.
From Verif Require Import Py PyToolsModel ModelModes ModelBasis ModelSymbolic ProofBasisIndex.
Import ListNotations.
Local Open Scope R_scope.

(** [ev] respects the operations [o]. *)
Record ev_ok {T} (o : vops T) (ev : T -> R) : Prop := {
  ev_c : forall r, ev (vc o r) = r;
  ev_add : forall a b, ev (vadd o a b) = ev a + ev b;
  ev_sub : forall a b, ev (vsub o a b) = ev a - ev b;
  ev_mul : forall a b, ev (vmul o a b) = ev a * ev b;
  ev_div : forall a b, ev (vdiv o a b) = ev a / ev b;
  ev_neg : forall a, ev (vneg o a) = - ev a;
  ev_abs : forall a, ev (vabs o a) = Rabs (ev a);
  ev_pow : forall a n, ev (vpow o a n) = ev a ^ n;
  ev_ge : forall a t x y, ev (vwhere_ge o a t x y) = if Rle_dec t (ev a) then ev x else ev y;
  ev_gt : forall a t x y, ev (vwhere_gt o a t x y) = if Rlt_dec t (ev a) then ev x else ev y;
  ev_cse : forall a, ev (vcse o a) = ev a
}.

(** The same outcome: the same exception, or results related by [P]. *)
Definition rrel {A B} (P : A -> B -> Prop) (x : res A) (y : res B) : Prop :=
  match x, y with Ok a, Ok b => P a b | Err e, Err e' => e = e' | _, _ => False end.

Lemma rrel_bind {A B A' B'} (P : A -> B -> Prop) (Q : A' -> B' -> Prop) x y f g :
  rrel P x y -> (forall a b, P a b -> rrel Q (f a) (g b)) -> rrel Q (bind x f) (bind y g).
Proof. destruct x, y; cbn; intros; try tauto; auto. Qed.
Lemma rrel_mapM {A B A' B'} (P : A -> B -> Prop) (Q : A' -> B' -> Prop) f g xs ys :
  Forall2 P xs ys -> (forall a b, P a b -> rrel Q (f a) (g b)) -> rrel (Forall2 Q) (mapM f xs) (mapM g ys).
Proof.
  intros H HP. induction H as [|a b xs ys Hab H IH]; cbn [mapM]; [constructor|].
  eapply rrel_bind; [now apply HP|]. intros u v Huv. eapply rrel_bind; [exact IH|].
  intros us vs Hs. cbn. now constructor.
Qed.
Lemma rrel_mapM_in {A B A' B'} (P : A -> B -> Prop) (Q : A' -> B' -> Prop) f g xs ys :
  Forall2 (fun a b => P a b /\ rrel Q (f a) (g b)) xs ys -> rrel (Forall2 Q) (mapM f xs) (mapM g ys).
Proof.
  intros H. induction H as [|a b xs ys [Hab Hq] H IH]; cbn [mapM]; [constructor|].
  eapply rrel_bind; [exact Hq|]. intros u v Huv. eapply rrel_bind; [exact IH|].
  intros us vs Hs. cbn. now constructor.
Qed.
Lemma rrel_zipM {A B A' B' X Y} (P : A -> B -> Prop) (P' : A' -> B' -> Prop) (Q : X -> Y -> Prop) f g xs ys xs' ys' :
  Forall2 P xs ys -> Forall2 P' xs' ys' -> (forall a b a' b', P a b -> P' a' b' -> rrel Q (f a a') (g b b')) ->
  rrel (Forall2 Q) (zipM f xs xs') (zipM g ys ys').
Proof.
  intros H H' HP. revert xs' ys' H'. induction H as [|a b xs ys Hab H IH]; intros xs' ys' H'; inversion H'; subst; cbn [zipM]; try reflexivity; [constructor|].
  eapply rrel_bind; [now apply HP|]. intros u v Huv. eapply rrel_bind; [now apply IH|].
  intros us vs Hs. cbn. now constructor.
Qed.
Lemma Forall2_refl {A} (l : list A) : Forall2 eq l l.
Proof. induction l; constructor; auto. Qed.
Lemma Forall2_lengthS {A B} (P : A -> B -> Prop) l l' : Forall2 P l l' -> length l = length l'.
Proof. induction 1; cbn; congruence. Qed.
Lemma Forall2_lengths {A B} (P : A -> B -> Prop) l l' : Forall2 (Forall2 P) l l' -> map (@length _) l = map (@length _) l'.
Proof. induction 1 as [|a b l l' H _ IH]; cbn; [reflexivity|]. now rewrite IH, (Forall2_lengthS _ _ _ H). Qed.
Lemma rrel_getitem {A B} (P : A -> B -> Prop) l l' i : Forall2 P l l' -> rrel P (getitem l i) (getitem l' i).
Proof.
  intros H. unfold getitem. revert i. induction H as [|a b l l' Hab H IH]; intros [|i]; cbn; auto.
Qed.
Lemma Forall2_combine {A B A' B'} (P : A -> B -> Prop) (Q : A' -> B' -> Prop) l l' k k' :
  Forall2 P l l' -> Forall2 Q k k' -> Forall2 (fun p q => P (fst p) (fst q) /\ Q (snd p) (snd q)) (combine l k) (combine l' k').
Proof.
  intros H. revert k k'. induction H as [|a b l l' Hab H IH]; intros k k' HQ; inversion HQ; subst; cbn; constructor; auto.
Qed.
Lemma Forall2_map {A B A' B'} (P : A' -> B' -> Prop) (f : A -> A') (g : B -> B') l l' :
  Forall2 (fun a b => P (f a) (g b)) l l' -> Forall2 P (map f l) (map g l').
Proof. induction 1; cbn; constructor; auto. Qed.
Lemma Forall2_same {A B A'} (P : A -> B -> Prop) (f : A' -> A) (g : A' -> B) l :
  (forall a, P (f a) (g a)) -> Forall2 P (map f l) (map g l).
Proof. intros H. induction l; cbn; constructor; auto. Qed.

Section Evaluation.
  Context {T : Type} (o : vops T) (ev : T -> R) (H : ev_ok o ev).

  Ltac ev := repeat first
    [ rewrite (ev_c _ _ H) | rewrite (ev_add _ _ H) | rewrite (ev_sub _ _ H) | rewrite (ev_mul _ _ H)
    | rewrite (ev_div _ _ H) | rewrite (ev_neg _ _ H) | rewrite (ev_abs _ _ H) | rewrite (ev_pow _ _ H)
    | rewrite (ev_ge _ _ H) | rewrite (ev_gt _ _ H) | rewrite (ev_cse _ _ H) ].

  Lemma ev_jac_loop alpha beta x i steps aold p q :
    ev (jac_loop o alpha beta x i steps aold p q) = jac_loop Rops alpha beta (ev x) i steps aold (ev p) (ev q).
  Proof.
    revert i aold p q. induction steps as [|k IH]; intros i aold p q; cbn [jac_loop]; [reflexivity|].
    rewrite IH. ev. reflexivity.
  Qed.
  Lemma ev_jacobi alpha beta n x : ev (jacobi o alpha beta n x) = jacobi Rops alpha beta n (ev x).
  Proof.
    unfold jacobi. destruct n as [|n]; cbv zeta.
    - ev. reflexivity.
    - rewrite ev_jac_loop. ev. reflexivity.
  Qed.
  Lemma ev_grad_jacobi alpha beta n x : ev (grad_jacobi o alpha beta n x) = grad_jacobi Rops alpha beta n (ev x).
  Proof. destruct n; unfold grad_jacobi; ev; [reflexivity|]. rewrite ev_jacobi. reflexivity. Qed.
  Lemma ev_scaled_jacobi alpha beta n x : ev (scaled_jacobi o alpha beta n x) = scaled_jacobi Rops alpha beta n (ev x).
  Proof. unfold scaled_jacobi. cbv zeta. ev. rewrite ev_jacobi. reflexivity. Qed.

  Lemma ev_rstoab r s : (ev (fst (rstoab o r s)), ev (snd (rstoab o r s))) = rstoab Rops (ev r) (ev s).
  Proof. unfold rstoab; cbn [fst snd]. ev. reflexivity. Qed.
  Lemma ev_pkdo_2d i j r s : ev (pkdo_2d o i j r s) = pkdo_2d Rops i j (ev r) (ev s).
  Proof.
    unfold pkdo_2d. rewrite <- ev_rstoab. destruct (rstoab o r s) as [a b]; cbn [fst snd]. ev.
    rewrite !ev_jacobi. reflexivity.
  Qed.
  Lemma ev_if (c : bool) x y : ev (if c then x else y) = if c then ev x else ev y.
  Proof. now destruct c. Qed.
  Lemma ev_grad_pkdo_2d i j r s :
    (ev (fst (grad_pkdo_2d o i j r s)), ev (snd (grad_pkdo_2d o i j r s))) = grad_pkdo_2d Rops i j (ev r) (ev s).
  Proof.
    unfold grad_pkdo_2d. rewrite <- ev_rstoab. destruct (rstoab o r s) as [a b]; cbn [fst snd]. cbv zeta.
    repeat (progress (rewrite ?ev_if; ev; rewrite ?ev_jacobi, ?ev_grad_jacobi)). reflexivity.
  Qed.
  Lemma ev_rsttoabc r s t : let '(a, b, c) := rsttoabc o r s t in (ev a, ev b, ev c) = rsttoabc Rops (ev r) (ev s) (ev t).
  Proof. unfold rsttoabc. ev. reflexivity. Qed.
  Lemma ev_pkdo_3d i j k r s t : ev (pkdo_3d o i j k r s t) = pkdo_3d Rops i j k (ev r) (ev s) (ev t).
  Proof.
    unfold pkdo_3d. pose proof (ev_rsttoabc r s t) as E. destruct (rsttoabc o r s t) as [[a b] c]. rewrite <- E. ev.
    rewrite !ev_jacobi. reflexivity.
  Qed.
  Lemma ev_grad_pkdo_3d i j k r s t :
    let '(a, b, c) := grad_pkdo_3d o i j k r s t in (ev a, ev b, ev c) = grad_pkdo_3d Rops i j k (ev r) (ev s) (ev t).
  Proof.
    unfold grad_pkdo_3d. pose proof (ev_rsttoabc r s t) as E. destruct (rsttoabc o r s t) as [[a b] c]. rewrite <- E. cbv zeta.
    repeat (progress (rewrite ?ev_if; ev; rewrite ?ev_jacobi, ?ev_grad_jacobi)). reflexivity.
  Qed.

  Lemma ev_product l : ev (product o l) = product Rops (map ev l).
  Proof.
    unfold product. rewrite <- (ev_c _ _ H 1) at 1.
    assert (G : forall a, ev (fold_left (fun acc f => vmul o acc f) l a) = fold_left (fun acc f => vmul Rops acc f) (map ev l) (ev a)).
    { induction l as [|x l IH]; intros a; cbn [fold_left map]; [reflexivity|]. rewrite IH. ev. reflexivity. }
    rewrite G. ev. reflexivity.
  Qed.
  Lemma ev_diff_monomial_1d r n : ev (diff_monomial_1d o r n) = diff_monomial_1d Rops (ev r) n.
  Proof. destruct n as [|[|n]]; cbn [diff_monomial_1d]; ev; reflexivity. Qed.

  (** Functions of points. *)
  Definition V (a : T) (r : R) : Prop := ev a = r.
  Definition fun_sim (f : list T -> res T) (g : list R -> res R) : Prop := forall x, rrel V (f x) (g (map ev x)).
  Definition grad_sim (f : list T -> res (list T)) (g : list R -> res (list R)) : Prop :=
    forall x, rrel (Forall2 V) (f x) (g (map ev x)).

  Lemma Forall2_V l : Forall2 V l (map ev l).
  Proof. induction l; cbn; constructor; auto. reflexivity. Qed.
  Lemma Forall2_V_eq l l' : Forall2 V l l' -> map ev l = l'.
  Proof. induction 1 as [|a b l l' Hab _ IH]; cbn; [reflexivity|]. now rewrite IH, Hab. Qed.

  Lemma sim_monomial order : fun_sim (monomial o order) (monomial Rops order).
  Proof.
    intros x. unfold monomial. rewrite map_length. destruct (negb (length order =? length x)%nat); cbn; [reflexivity|].
    unfold V. rewrite ev_product. rewrite map_map. f_equal.
    revert order. induction x as [|a x IH]; intros [|n order]; cbn; try reflexivity. rewrite IH. ev. reflexivity.
  Qed.
  Lemma ev_diff_product (c : nat -> bool) order x k :
    map ev (map (fun p => if c (fst p) then diff_monomial_1d o (fst (snd p)) (snd (snd p)) else vpow o (fst (snd p)) (snd (snd p)))
                (combine (seq k (length order)) (combine x order)))
    = map (fun p => if c (fst p) then diff_monomial_1d Rops (fst (snd p)) (snd (snd p)) else vpow Rops (fst (snd p)) (snd (snd p)))
          (combine (seq k (length order)) (combine (map ev x) order)).
  Proof.
    revert order k. induction x as [|a x IH]; intros [|n order] k; cbn; try reflexivity. rewrite IH. f_equal.
    destruct (c k); [apply ev_diff_monomial_1d|]. ev. reflexivity.
  Qed.
  Lemma sim_diff_monomial order axis : fun_sim (diff_monomial o order axis) (diff_monomial Rops order axis).
  Proof.
    intros x. unfold diff_monomial. rewrite map_length. destruct (negb (length order =? length x)%nat); cbn; [reflexivity|].
    unfold V. rewrite ev_product. f_equal. apply (ev_diff_product (fun k => (axis =? Z.of_nat k)%Z)).
  Qed.
  Lemma sim_grad_monomial order : grad_sim (grad_monomial o order) (grad_monomial Rops order).
  Proof.
    intros x. unfold grad_monomial. rewrite map_length. destruct (negb (length order =? length x)%nat); cbn; [reflexivity|].
    apply Forall2_same. intros j. unfold V. rewrite ev_product. f_equal. apply (ev_diff_product (fun k => (j =? k)%nat)).
  Qed.
  Lemma sim_zerod : fun_sim (zerod_basis o) (zerod_basis Rops).
  Proof. intros [|a x]; cbn; [|reflexivity]. unfold V. ev. reflexivity. Qed.
  Lemma sim_pkdo_1d order : fun_sim (pkdo_1d o order) (pkdo_1d Rops order).
  Proof.
    intros x. destruct order as [|i [|? ?]], x as [|a [|? ?]]; cbn; try reflexivity.
    apply ev_jacobi.
  Qed.
  Lemma sim_grad_pkdo_1d order : grad_sim (grad_pkdo_1d o order) (grad_pkdo_1d Rops order).
  Proof.
    intros x. destruct order as [|i [|? ?]], x as [|a [|? ?]]; cbn; try reflexivity.
    constructor; [|constructor]. apply ev_grad_jacobi.
  Qed.
  Lemma sim_pkdo_2d order : fun_sim (pkdo_2d_fn o order) (pkdo_2d_fn Rops order).
  Proof.
    intros x. destruct order as [|i [|j [|? ?]]], x as [|a [|b [|? ?]]]; cbn; try reflexivity.
    apply ev_pkdo_2d.
  Qed.
  Lemma sim_grad_pkdo_2d order : grad_sim (grad_pkdo_2d_fn o order) (grad_pkdo_2d_fn Rops order).
  Proof.
    intros x. destruct order as [|i [|j [|? ?]]], x as [|a [|b [|? ?]]]; cbn [grad_pkdo_2d_fn map]; try reflexivity.
    rewrite <- ev_grad_pkdo_2d. destruct (grad_pkdo_2d o i j a b) as [u v]. cbn. repeat constructor.
  Qed.
  Lemma sim_pkdo_3d order : fun_sim (pkdo_3d_fn o order) (pkdo_3d_fn Rops order).
  Proof.
    intros x. destruct order as [|i [|j [|k [|? ?]]]], x as [|a [|b [|c [|? ?]]]]; cbn [pkdo_3d_fn map]; try reflexivity.
    apply ev_pkdo_3d.
  Qed.
  Lemma sim_grad_pkdo_3d order : grad_sim (grad_pkdo_3d_fn o order) (grad_pkdo_3d_fn Rops order).
  Proof.
    intros x. destruct order as [|i [|j [|k [|? ?]]]], x as [|a [|b [|c [|? ?]]]]; cbn [grad_pkdo_3d_fn map]; try reflexivity.
    pose proof (ev_grad_pkdo_3d i j k a b c) as E. destruct (grad_pkdo_3d o i j k a b c) as [[u v] w]. rewrite <- E. cbn. repeat constructor.
  Qed.

  (** Tensor products. *)
  Lemma sim_tp_call dims fs gs : Forall2 fun_sim fs gs -> fun_sim (tp_call o dims fs) (tp_call Rops dims gs).
  Proof.
    intros Hf x. unfold tp_call. rewrite map_length. destruct (negb (length x =? sum_nat dims)%nat); [reflexivity|].
    assert (G : forall dims n a r, V a r -> rrel V (tp_call_loop o x n dims fs a) (tp_call_loop Rops (map ev x) n dims gs r)).
    { clear dims. induction Hf as [|f g fs gs Hfg Hf IH]; intros [|d dims] n a r Ha; cbn [tp_call_loop]; try reflexivity; [exact Ha|].
      eapply rrel_bind; [rewrite skipn_map, firstn_map; apply Hfg|].
      intros u v Huv. apply IH. unfold V in *. ev. cbn. now rewrite Ha, Huv. }
    apply G. apply (ev_c _ _ H).
  Qed.
  Definition dsim (f : dfun (T:=T)) (g : dfun (T:=R)) : Prop :=
    match f, g with inl f, inl g => fun_sim f g | inr f, inr g => grad_sim f g | _, _ => False end.
  Lemma sim_imul_from n cs cs' rs rs' : Forall2 V cs cs' -> Forall2 V rs rs' ->
    rrel (Forall2 V) (imul_from o n cs rs) (imul_from Rops n cs' rs').
  Proof.
    intros Hc. revert rs rs'. induction n as [|n IH]; intros rs rs' Hr; cbn [imul_from].
    - revert rs rs' Hr. induction Hc as [|c c' cs cs' Hcc Hc IHc]; intros rs rs' Hr; destruct Hr as [|r r' rs rs' Hrr Hr]; cbn [imul_head]; try reflexivity; try (constructor; auto; fail).
      eapply rrel_bind; [now apply IHc|]. intros u v Huv. cbn. constructor; [|exact Huv]. unfold V in *. ev. cbn. now rewrite Hrr, Hcc.
    - destruct Hr as [|r r' rs rs' Hrr Hr].
      + destruct Hc; cbn; [constructor|reflexivity].
      + eapply rrel_bind; [now apply IH|]. intros u v Huv. cbn. now constructor.
  Qed.
  Lemma Forall2_repeat {A B} (P : A -> B -> Prop) a b n : P a b -> Forall2 P (repeat a n) (repeat b n).
  Proof. intros Hp. induction n; cbn; constructor; auto. Qed.
  Lemma sim_tp_grad_inner x nders n f dims ds ds' rs rs' : Forall2 dsim ds ds' -> Forall2 V rs rs' ->
    rrel (Forall2 V) (tp_grad_inner o x nders n f dims ds rs) (tp_grad_inner Rops (map ev x) nders n f dims ds' rs').
  Proof.
    intros Hd. revert f dims rs rs'. induction Hd as [|d d' ds ds' Hdd Hd IH]; intros f [|a dims] rs rs' Hr; cbn [tp_grad_inner]; try reflexivity; [exact Hr|].
    rewrite skipn_map, firstn_map. cbv zeta.
    apply rrel_bind with (P := Forall2 V).
    - destruct d as [h|h], d' as [h'|h']; cbn in Hdd; try contradiction.
      + eapply rrel_bind; [apply Hdd|]. intros u v Huv. cbn. now apply Forall2_repeat.
      + eapply rrel_bind; [apply Hdd|]. intros u v Huv. rewrite (Forall2_lengthS _ _ _ Huv).
        destruct (length v =? nders)%nat; cbn; [exact Huv|reflexivity].
    - intros u v Huv. eapply rrel_bind; [apply sim_imul_from; eassumption|]. intros rs1 rs1' Hr1. now apply IH.
  Qed.
  Lemma sim_tp_grad_call dims dss dss' : Forall2 (Forall2 dsim) dss dss' -> grad_sim (tp_grad_call o dims dss) (tp_grad_call Rops dims dss').
  Proof.
    intros Hd x. unfold tp_grad_call. rewrite map_length. destruct (negb (length x =? sum_nat dims)%nat); [reflexivity|].
    assert (G : forall ider n rs rs', Forall2 V rs rs' ->
      rrel (Forall2 V) (tp_grad_outer o x dims ider n dss rs) (tp_grad_outer Rops (map ev x) dims ider n dss' rs')).
    { induction Hd as [|d d' dss dss' Hdd Hd IH]; intros ider n rs rs' Hr; cbn [tp_grad_outer]; [exact Hr|].
      destruct (getitem dims ider) as [nders|e]; cbn [bind]; [|reflexivity].
      eapply rrel_bind; [apply sim_tp_grad_inner; eassumption|]. intros u v Huv. now apply IH. }
    apply G. apply Forall2_repeat. apply (ev_c _ _ H).
  Qed.

  (** Bases. *)
  Lemma sim_functions b : rrel (Forall2 fun_sim) (functions o b) (functions Rops b).
  Proof.
    induction b as [d n|d n|bs ds IH] using basis_ind'; cbn [functions].
    - unfold simplex_onb_functions. cbv zeta. destruct d as [|[|[|[|d]]]]; cbn [rrel].
      + constructor; [apply sim_zerod|constructor].
      + apply Forall2_same, sim_pkdo_1d.
      + apply Forall2_same, sim_pkdo_2d.
      + apply Forall2_same, sim_pkdo_3d.
      + reflexivity.
    - apply Forall2_same, sim_monomial.
    - apply rrel_bind with (P := Forall2 (Forall2 fun_sim)).
      + apply rrel_mapM_in with (P := fun _ _ => True). induction IH as [|b bs Hb _ IHbs]; constructor; auto.
      + intros fss gss Hfg. pose proof (Forall2_lengths _ _ _ Hfg) as EL. unfold bfun, bgrad in *. rewrite <- EL.
        eapply rrel_mapM; [apply Forall2_refl|]. intros mid mid' <-.
        apply rrel_bind with (P := Forall2 fun_sim).
        * eapply rrel_zipM; [exact Hfg|apply Forall2_refl|]. intros fs gs i i' Hf <-. now apply rrel_getitem.
        * intros fs gs Hf. cbn. now apply sim_tp_call.
  Qed.
  Lemma sim_onb_gradients d n : rrel (Forall2 grad_sim) (simplex_onb_gradients o d n) (simplex_onb_gradients Rops d n).
  Proof.
    unfold simplex_onb_gradients. cbv zeta. destruct d as [|[|[|[|d]]]]; cbn [rrel]; try reflexivity.
    - apply Forall2_same, sim_grad_pkdo_1d.
    - apply Forall2_same, sim_grad_pkdo_2d.
    - apply Forall2_same, sim_grad_pkdo_3d.
  Qed.
  Lemma sim_gradients b : rrel (Forall2 grad_sim) (gradients o b) (gradients Rops b).
  Proof.
    induction b as [d n|d n|bs ds IH] using basis_ind'; cbn [gradients].
    - apply sim_onb_gradients.
    - apply Forall2_same, sim_grad_monomial.
    - apply rrel_bind with (P := Forall2 (Forall2 fun_sim)).
      { eapply rrel_mapM; [apply Forall2_refl|]. intros b b' <-. apply sim_functions. }
      intros fss fss' Hf. apply rrel_bind with (P := Forall2 (Forall2 grad_sim)).
      { apply rrel_mapM_in with (P := fun _ _ => True). induction IH as [|b bs Hb _ IHbs]; constructor; auto. }
      intros gss gss' Hg. pose proof (Forall2_lengths _ _ _ Hf) as EL. unfold bfun, bgrad in *. rewrite <- EL. cbv zeta.
      eapply rrel_mapM; [apply Forall2_refl|]. intros mid mid' <-.
      apply rrel_bind with (P := Forall2 (Forall2 dsim)).
      + eapply rrel_mapM; [apply Forall2_refl|]. intros ind ind' <-.
        eapply rrel_zipM with (P' := eq).
        * apply (Forall2_combine eq (fun p q => Forall2 fun_sim (fst p) (fst q) /\ Forall2 grad_sim (snd p) (snd q))); [apply Forall2_refl|].
          now apply Forall2_combine.
        * apply Forall2_refl.
        * intros [k [fs gs]] [k' [fs' gs']] i i' [E [Hfs Hgs]] <-. cbn [fst snd] in *. subst k'.
          destruct k; (eapply rrel_bind; [apply rrel_getitem; eassumption|]; intros u v Huv; exact Huv).
      + intros u v Huv. cbn. now apply sim_tp_grad_call.
  Qed.
  Lemma rrel_getitem_z l l' i : Forall2 V l l' -> rrel V (getitem_z l i) (getitem_z l' i).
  Proof.
    intros Hl. unfold getitem_z. rewrite (Forall2_lengthS _ _ _ Hl).
    destruct (i <? 0)%Z; [destruct (0 <=? i + Z.of_nat (length l'))%Z|]; try reflexivity; now apply rrel_getitem.
  Qed.
  Lemma sim_derivatives b : forall axis, rrel (Forall2 fun_sim) (derivatives o b axis) (derivatives Rops b axis).
  Proof.
    induction b as [d n|d n|bs ds IH] using basis_ind'; intros axis; cbn [derivatives].
    - eapply rrel_bind; [apply sim_onb_gradients|]. intros gs gs' Hg. cbn [rrel].
      apply Forall2_map. induction Hg as [|g g' gs gs' Hgg Hg IHg]; constructor; auto.
      intros x. eapply rrel_bind; [apply Hgg|]. intros u v Huv. now apply rrel_getitem_z.
    - apply Forall2_same. intros order. apply sim_diff_monomial.
    - apply rrel_bind with (P := Forall2 (Forall2 fun_sim)).
      { eapply rrel_mapM; [apply Forall2_refl|]. intros b b' <-. apply sim_functions. }
      intros fss fss' Hf. pose proof (Forall2_lengths _ _ _ Hf) as EL. unfold bfun, bgrad in *. rewrite <- EL.
      eapply rrel_mapM; [apply Forall2_refl|]. intros mid mid' <-.
      apply rrel_bind with (P := Forall2 fun_sim).
      + eapply rrel_zipM with (P' := eq).
        * eapply Forall2_combine; [|exact Hf].
          apply Forall2_map with (P := fun u v => forall axis, rrel (Forall2 fun_sim) (u axis) (v axis)).
          induction IH as [|b bs Hb _ IHbs]; constructor; auto.
        * apply Forall2_refl.
        * intros [u fs] [u' fs'] [i [sa ea]] q [Hu Hfs] <-. cbn [fst snd] in *.
          destruct ((Z.of_nat sa <=? axis) && (axis <? Z.of_nat ea))%Z.
          -- eapply rrel_bind; [apply Hu|]. intros l l' Hl. now apply rrel_getitem.
          -- now apply rrel_getitem.
      + intros fs gs Hfs. destruct (length mid =? length ds)%nat; [cbn; now apply sim_tp_call|reflexivity].
  Qed.
End Evaluation.

(** The pymbolic operands. *)
Lemma eval_as_expr x v : eval_expr x (as_expr v) = evaluate x v.
Proof. now destruct v. Qed.
Lemma evaluate_smul x a b : evaluate x (smul a b) = evaluate x a * evaluate x b.
Proof.
  destruct a as [u|e], b as [v|e']; cbn; try reflexivity.
  - destruct (Req_EM_T u 1) as [->|]; [cbn; ring|]. destruct (Req_EM_T u 0) as [->|]; cbn; ring.
  - destruct (Req_EM_T v 1) as [->|]; [cbn; ring|]. destruct (Req_EM_T v 0) as [->|]; cbn; ring.
Qed.
Lemma evaluate_sneg x a : evaluate x (sneg a) = - evaluate x a.
Proof. destruct a; cbn [sneg]; [reflexivity|]. rewrite evaluate_smul. cbn. ring. Qed.
Lemma evaluate_sadd x a b : evaluate x (sadd a b) = evaluate x a + evaluate x b.
Proof.
  destruct a as [u|e], b as [v|e']; cbn; try reflexivity.
  - destruct (Req_EM_T u 0) as [->|]; cbn; ring.
  - destruct (Req_EM_T v 0) as [->|]; cbn; ring.
Qed.
Lemma Sops_ok x : ev_ok Sops (evaluate x).
Proof.
  constructor; cbn.
  - reflexivity.
  - apply evaluate_sadd.
  - intros a b. unfold ssub. destruct a, b; [reflexivity| | |]; rewrite evaluate_sadd, evaluate_sneg; reflexivity.
  - apply evaluate_smul.
  - intros [u|e] [v|e']; cbn; try reflexivity. destruct (Req_EM_T v 1) as [->|]; cbn; [field|reflexivity].
  - apply evaluate_sneg.
  - now intros [u|e].
  - intros [u|e] [|[|n]]; cbn; try reflexivity. ring.
  - intros [u|e] t th el; cbn; [now destruct (Rle_dec t u)|]. rewrite !eval_as_expr. reflexivity.
  - intros [u|e] t th el; cbn; [now destruct (Rlt_dec t u)|]. rewrite !eval_as_expr. reflexivity.
  - now intros [u|e].
Qed.
Lemma evaluate_sym_vector x : map (evaluate x) (make_sym_vector (length x)) = x.
Proof.
  unfold make_sym_vector. rewrite map_map. cbn.
  apply nth_ext with (d := 0) (d' := 0); rewrite map_length, seq_length; [reflexivity|].
  intros i Hi. rewrite nth_indep with (d' := nth 0 x 0) by (rewrite map_length, seq_length; lia).
  rewrite (map_nth (fun i => nth i x 0)). now rewrite seq_nth by lia.
Qed.
