(** * Small facts about Riemann integrals over R (Coquelicot) *)
From Coq Require Import Reals Lia Lra.
From Coquelicot Require Import Coquelicot.
From Verif Require Import RSum.
Local Open Scope R_scope.

Lemma ex_derive_cont (f : R -> R) x : ex_derive f x -> continuous f x.
Proof. apply (@ex_derive_continuous R_AbsRing R_NormedModule). Qed.

Lemma FTC (g dg : R -> R) a b :
  (forall x, is_derive g x (dg x)) -> (forall x, continuous dg x) ->
  is_RInt dg a b (g b - g a).
Proof.
  intros H1 H2. apply (@is_RInt_derive R_CompleteNormedModule g dg); intros x _; auto.
Qed.

Lemma FTC_in (g dg : R -> R) a b : a <= b ->
  (forall x, a <= x <= b -> is_derive g x (dg x)) ->
  (forall x, a <= x <= b -> continuous dg x) ->
  is_RInt dg a b (g b - g a).
Proof.
  intros Hab H1 H2. apply (@is_RInt_derive R_CompleteNormedModule g dg);
    intros x; rewrite Rmin_left, Rmax_right by easy; auto.
Qed.

Lemma isR_plus (f g : R -> R) (a b l m : R) :
  is_RInt f a b l -> is_RInt g a b m -> is_RInt (fun x => f x + g x) a b (l + m).
Proof. exact (@is_RInt_plus R_NormedModule f g a b l m). Qed.

Lemma isR_minus (f g : R -> R) (a b l m : R) :
  is_RInt f a b l -> is_RInt g a b m -> is_RInt (fun x => f x - g x) a b (l - m).
Proof. exact (@is_RInt_minus R_NormedModule f g a b l m). Qed.

Lemma isR_scal (f : R -> R) (a b c l : R) :
  is_RInt f a b l -> is_RInt (fun x => c * f x) a b (c * l).
Proof. exact (@is_RInt_scal R_NormedModule f a b c l). Qed.

Lemma isR_ext (f g : R -> R) (a b l : R) :
  (forall x, f x = g x) -> is_RInt f a b l -> is_RInt g a b l.
Proof. intros H. apply is_RInt_ext. intros x _. apply H. Qed.

Lemma isR_eq (f : R -> R) (a b l m : R) : is_RInt f a b l -> l = m -> is_RInt f a b m.
Proof. now intros H <-. Qed.

Lemma isR_const (c a b : R) : is_RInt (fun _ => c) a b ((b - a) * c).
Proof. exact (@is_RInt_const R_NormedModule a b c). Qed.

Lemma isR_rsum (f : nat -> R -> R) (l : nat -> R) a b n :
  (forall k, (k < n)%nat -> is_RInt (f k) a b (l k)) ->
  is_RInt (fun x => rsum (fun k => f k x) n) a b (rsum l n).
Proof.
  induction n as [|n IH]; intros H; cbn [rsum].
  - eapply isR_eq; [apply isR_const|ring].
  - apply isR_plus; [apply IH; auto|apply H; auto].
Qed.

Lemma isR_unique (f : R -> R) (a b l : R) : is_RInt f a b l -> RInt f a b = l.
Proof. exact (@is_RInt_unique R_CompleteNormedModule f a b l). Qed.

Lemma exR_continuous (f : R -> R) a b : (forall x, continuous f x) -> ex_RInt f a b.
Proof. intros H. apply (@ex_RInt_continuous R_CompleteNormedModule). auto. Qed.

Lemma isR_continuous (f : R -> R) a b : (forall x, continuous f x) -> is_RInt f a b (RInt f a b).
Proof. intros H. apply (@RInt_correct R_CompleteNormedModule). now apply exR_continuous. Qed.
