(** * Integrals over reference elements (specification vocabulary)

    Iterated Riemann integrals.  [is_int_simplex d t f l]: the integral of [f]
    over the points x with x_i >= -1 and sum (x_i + 1) <= t is l, where the
    last coordinate is the outermost integration variable.  The bi-unit
    reference simplex is the case t = 2. *)
From Coquelicot Require Import Coquelicot.
From Coq Require Import List Arith Bool Reals Lra Lia.
From Verif Require Import ModelShapes RSum IntFacts SpecGeometry ProofNodeTuples.
Import ListNotations.
Local Open Scope R_scope.

Fixpoint is_int_simplex (d : nat) (t : R) (f : list R -> R) (l : R) : Prop :=
  match d with
  | O => f [] = l
  | S d' => exists g : R -> R,
      (forall x, -1 < x < -1 + t -> is_int_simplex d' (t - (x + 1)) (fun p => f (p ++ [x])) (g x))
      /\ is_RInt g (-1) (-1 + t) l
  end.

(** Integral over a reference element; a product of elements is integrated
    factor by factor. *)
Fixpoint is_int (s : shape) (f : list R -> R) (l : R) {struct s} : Prop :=
  match s with
  | Simplex d => is_int_simplex d 2 f l
  | TPShape _ _ bases =>
      (fix ints (bs : list shape) (f : list R -> R) (l : R) : Prop :=
         match bs with
         | [] => f [] = l
         | b :: bs' => exists g : list R -> R,
             (forall p, in_shape b p -> ints bs' (fun q => f (p ++ q)) (g p)) /\ is_int b g l
         end) bases f l
  end.

Fixpoint is_ints (bs : list shape) (f : list R -> R) (l : R) : Prop :=
  match bs with
  | [] => f [] = l
  | b :: bs' => exists g : list R -> R,
      (forall p, in_shape b p -> is_ints bs' (fun q => f (p ++ q)) (g p)) /\ is_int b g l
  end.
Fixpoint in_shapes (bs : list shape) (x : list R) : Prop :=
  match bs with
  | [] => x = []
  | b :: bs' => exists p q, x = p ++ q /\ in_shape b p /\ in_shapes bs' q
  end.

Lemma is_int_TP c n bs f l : is_int (TPShape c n bs) f l <-> is_ints bs f l.
Proof.
  cbn [is_int]. revert f l. induction bs as [|b bs IH]; intros f l; [reflexivity|].
  cbn [is_ints]. split; intros (g & H1 & H2); exists g; (split; [|exact H2]); intros p Hp;
    apply IH; now apply H1.
Qed.
Lemma in_shape_TP c n bs x : in_shape (TPShape c n bs) x <-> in_shapes bs x.
Proof.
  cbn [in_shape]. revert x. induction bs as [|b bs IH]; intros x; [reflexivity|].
  cbn [in_shapes]. split; intros (p & q & E & H1 & H2); exists p, q; repeat split; auto; now apply IH.
Qed.

(** Points of the scaled simplex. *)
Definition in_sx (d : nat) (t : R) (x : list R) : Prop :=
  length x = d /\ Forall (fun c => -1 <= c) x /\ list_sum (map (fun c => c + 1) x) <= t.

Lemma list_sum_shift x : list_sum (map (fun c => c + 1) x) = list_sum x + INR (length x).
Proof.
  unfold list_sum. induction x as [|c x IH]; [simpl; ring|].
  cbn [map fold_right length]. rewrite IH, S_INR. ring.
Qed.
Lemma in_sx_simplex d x : in_sx d 2 x <-> in_simplex d x.
Proof.
  unfold in_sx, in_simplex. split; intros (H1 & H2 & H3); repeat split; auto;
    rewrite ?list_sum_shift in *; rewrite H1 in *; lra.
Qed.
Lemma list_sum_app x y : list_sum (x ++ y) = list_sum x + list_sum y.
Proof. unfold list_sum. induction x as [|c x IH]; simpl; [ring|]. rewrite IH. ring. Qed.

Lemma in_sx_snoc d t x p : -1 <= x -> in_sx d (t - (x + 1)) p -> in_sx (S d) t (p ++ [x]).
Proof.
  intros Hx (H1 & H2 & H3). repeat split.
  - rewrite app_length, H1. simpl. lia.
  - apply Forall_app. split; auto.
  - rewrite map_app, list_sum_app. cbn [map list_sum fold_right]. lra.
Qed.

Lemma is_int_simplex_ext d t f g l : 0 <= t -> (forall x, in_sx d t x -> f x = g x) ->
  is_int_simplex d t f l -> is_int_simplex d t g l.
Proof.
  revert t f g l. induction d as [|d IH]; intros t f g l Ht E H.
  - simpl in *. rewrite <- E; [easy|]. repeat split; [constructor|]. simpl. easy.
  - destruct H as (h & H1 & H2). exists h. split; [|easy].
    intros x Hx. eapply IH; [| |apply H1, Hx]; [lra|].
    intros p Hp. apply E. apply in_sx_snoc; [lra|easy].
Qed.

Lemma is_int_simplex_unique d t f l m : 0 <= t ->
  is_int_simplex d t f l -> is_int_simplex d t f m -> l = m.
Proof.
  revert t f l m. induction d as [|d IH]; intros t f l m Ht H1 H2.
  - simpl in *. congruence.
  - destruct H1 as (g & A1 & B1), H2 as (h & A2 & B2).
    rewrite <- (isR_unique _ _ _ _ B1). apply isR_unique.
    eapply is_RInt_ext; [|exact B2]. intros x Hx.
    rewrite Rmin_left, Rmax_right in Hx by lra.
    eapply IH; [|apply A2, Hx|apply A1, Hx]. lra.
Qed.

Lemma is_int_simplex_scal d t c f l :
  is_int_simplex d t f l -> is_int_simplex d t (fun x => c * f x) (c * l).
Proof.
  revert t f l. induction d as [|d IH]; intros t f l H.
  - simpl in *. congruence.
  - destruct H as (g & A & B). exists (fun x => c * g x). split.
    + intros x Hx. apply (IH _ (fun p => f (p ++ [x]))). now apply A.
    + now apply isR_scal.
Qed.

Lemma is_int_simplex_plus d t f g l m :
  is_int_simplex d t f l -> is_int_simplex d t g m ->
  is_int_simplex d t (fun x => f x + g x) (l + m).
Proof.
  revert t f g l m. induction d as [|d IH]; intros t f g l m H1 H2.
  - simpl in *. congruence.
  - destruct H1 as (h1 & A1 & B1), H2 as (h2 & A2 & B2). exists (fun x => h1 x + h2 x). split.
    + intros x Hx. apply (IH _ (fun p => f (p ++ [x])) (fun p => g (p ++ [x]))); auto.
    + now apply isR_plus.
Qed.

Lemma is_int_ext s : forall f g l, (forall x, in_shape s x -> f x = g x) -> is_int s f l -> is_int s g l.
Proof.
  induction s as [d|c n bs IH] using shape_ind'; intros f g l E H.
  - cbn [is_int] in *. eapply is_int_simplex_ext; [lra| |exact H].
    intros x Hx. apply E. cbn [in_shape]. now apply in_sx_simplex.
  - apply is_int_TP. apply is_int_TP in H.
    assert (E' : forall x, in_shapes bs x -> f x = g x)
      by (intros x Hx; apply E; now apply in_shape_TP).
    clear E. revert f g l E' H. induction IH as [|b bs Hb _ IHs]; intros f g l E H.
    + simpl in *. rewrite <- E; easy.
    + destruct H as (h & H1 & H2). exists h. split; [|easy].
      intros p Hp. eapply IHs; [|apply H1, Hp]. intros q Hq. apply E. exists p, q. auto.
Qed.

Lemma is_int_scal s : forall c f l, is_int s f l -> is_int s (fun x => c * f x) (c * l).
Proof.
  induction s as [d|k n bs IH] using shape_ind'; intros c f l H.
  - now apply is_int_simplex_scal.
  - apply is_int_TP. apply is_int_TP in H. revert f l H.
    induction IH as [|b bs Hb _ IHs]; intros f l H.
    + simpl in *. congruence.
    + destruct H as (h & H1 & H2). exists (fun p => c * h p). split.
      * intros p Hp. apply (IHs (fun q => f (p ++ q))). now apply H1.
      * now apply Hb.
Qed.

Lemma is_int_plus s : forall f g l m, is_int s f l -> is_int s g m -> is_int s (fun x => f x + g x) (l + m).
Proof.
  induction s as [d|k n bs IH] using shape_ind'; intros f g l m H1 H2.
  - now apply is_int_simplex_plus.
  - apply is_int_TP. apply is_int_TP in H1. apply is_int_TP in H2. revert f g l m H1 H2.
    induction IH as [|b bs Hb _ IHs]; intros f g l m H1 H2.
    + simpl in *. congruence.
    + destruct H1 as (h1 & A1 & B1), H2 as (h2 & A2 & B2). exists (fun p => h1 p + h2 p). split.
      * intros p Hp. apply (IHs (fun q => f (p ++ q)) (fun q => g (p ++ q))); auto.
      * now apply Hb.
Qed.

Lemma is_int_unique s : forall f l m, is_int s f l -> is_int s f m -> l = m.
Proof.
  induction s as [d|k n bs IH] using shape_ind'; intros f l m H1 H2.
  - eapply is_int_simplex_unique; [|exact H1|exact H2]. lra.
  - apply is_int_TP in H1. apply is_int_TP in H2. revert f l m H1 H2.
    induction IH as [|b bs Hb _ IHs]; intros f l m H1 H2.
    + simpl in *. congruence.
    + destruct H1 as (h1 & A1 & B1), H2 as (h2 & A2 & B2).
      eapply Hb; [exact B1|]. eapply is_int_ext; [|exact B2].
      intros p Hp. eapply IHs; [apply A2, Hp|apply A1, Hp].
Qed.

(** Fubini for product integrands, as it is built into the definition. *)
Lemma is_ints_cons b bs (f g : list R -> R) l m : is_int b f l -> is_ints bs g m ->
  forall h, (forall p q, in_shape b p -> in_shapes bs q -> h (p ++ q) = f p * g q) ->
  is_ints (b :: bs) h (l * m).
Proof.
  intros H1 H2 h Hh. cbn [is_ints]. exists (fun p => f p * m). split.
  - intros p Hp. apply (proj1 (is_int_TP CTensorProduct 0%nat bs _ _)).
    eapply is_int_ext; [|apply (is_int_scal (TPShape CTensorProduct 0%nat bs) (f p) g m); now apply is_int_TP].
    intros q Hq. symmetry. apply Hh; [easy|]. now apply in_shape_TP in Hq.
  - rewrite Rmult_comm. eapply is_int_ext; [|apply (is_int_scal b m f l H1)].
    intros x _. cbv beta. ring.
Qed.
