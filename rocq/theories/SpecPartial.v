(** * Partial derivatives of functions of a point (specification vocabulary) *)
From Coquelicot Require Import Coquelicot.
From Coq Require Import List Arith Reals Lra Lia.
From Verif Require Import Py.
Import ListNotations.
Local Open Scope R_scope.

(** The point x with coordinate j replaced by t. *)
Fixpoint upd (x : list R) (j : nat) (t : R) : list R :=
  match x, j with
  | [], _ => []
  | _ :: x', O => t :: x'
  | a :: x', S j' => a :: upd x' j' t
  end.

(** Value of a callable that does not raise. *)
Definition valR (f : list R -> res R) (x : list R) : R :=
  match f x with Ok v => v | Err _ => 0 end.

(** [f] has the partial derivatives [g] at [x]. *)
Definition has_partials (f : list R -> R) (x g : list R) : Prop :=
  length g = length x /\
  forall j, (j < length x)%nat -> is_derive (fun t => f (upd x j t)) (nth j x 0) (nth j g 0).

Lemma upd_length x j t : length (upd x j t) = length x.
Proof. revert j; induction x as [|a x IH]; intros [|j]; simpl; auto. Qed.
Lemma upd_self x j : upd x j (nth j x 0) = x.
Proof. revert j; induction x as [|a x IH]; intros [|j]; simpl; auto. now rewrite IH. Qed.
Lemma upd_app_l x y j t : (j < length x)%nat -> upd (x ++ y) j t = upd x j t ++ y.
Proof.
  revert j; induction x as [|a x IH]; intros [|j] H; simpl in *; auto; try lia.
  now rewrite IH by lia.
Qed.
Lemma upd_app_r x y j t : (length x <= j)%nat -> upd (x ++ y) j t = x ++ upd y (j - length x) t.
Proof.
  revert j; induction x as [|a x IH]; intros j H; simpl in *; [now rewrite Nat.sub_0_r|].
  destruct j as [|j]; [lia|]. simpl. now rewrite IH by lia.
Qed.
