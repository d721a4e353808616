(** * Evaluation of tensor-product basis functions. *)
From Coq Require Import List Arith Bool ZArith Reals Lra Lia.
From Verif Require Import Py PyToolsModel ModelNd ModelShapes ModelSpaces ModelModes ModelBasis
  EnumFacts SpecIndex.
Import ListNotations.

Lemma skipn_app_len {A} (l1 l2 : list A) : skipn (length l1) (l1 ++ l2) = l2.
Proof. rewrite skipn_app, Nat.sub_diag, skipn_all. reflexivity. Qed.
Lemma firstn_app_len {A} (l1 l2 : list A) : firstn (length l1) (l1 ++ l2) = l1.
Proof. rewrite firstn_app, Nat.sub_diag, firstn_all, firstn_O, app_nil_r. reflexivity. Qed.

(** [fs] evaluated on the coordinate blocks [xs] gives the values [vs]. *)
Inductive block_values {T} : list nat -> list (bfun (T:=T)) -> list (list T) -> list T -> Prop :=
| bv_nil : block_values [] [] [] []
| bv_cons d dims f fs x xs v vs :
    length x = d -> f x = Ok v -> block_values dims fs xs vs ->
    block_values (d :: dims) (f :: fs) (x :: xs) (v :: vs).

Lemma tp_call_loop_ok {T} (o : vops T) pre dims fs xs vs acc : block_values dims fs xs vs ->
  tp_call_loop o (pre ++ concat xs) (length pre) dims fs acc = Ok (fold_left (vmul o) vs acc).
Proof.
  intros H; revert pre acc. induction H as [|d dims f fs x xs v vs Hd Hf H IH]; intros pre acc; simpl; auto.
  rewrite skipn_app_len. rewrite <- Hd, firstn_app_len, Hf. cbn [bind].
  rewrite app_assoc, <- app_length. apply IH.
Qed.

Lemma block_values_len {T} dims fs (xs : list (list T)) vs : block_values dims fs xs vs ->
  length (concat xs) = sum_nat dims.
Proof. induction 1; simpl; auto. rewrite app_length. unfold sum_nat in *; simpl. lia. Qed.

Lemma tp_call_ok {T} (o : vops T) dims fs xs vs : block_values dims fs xs vs ->
  tp_call o dims fs (concat xs) = Ok (fold_left (vmul o) vs (vc o 1%R)).
Proof.
  intros H. unfold tp_call. rewrite (block_values_len _ _ _ _ H), Nat.eqb_refl. cbn [negb].
  apply (tp_call_loop_ok o [] dims fs xs vs _ H).
Qed.

Lemma fold_left_Rmult vs a : fold_left Rmult vs a = (a * fold_right Rmult 1 vs)%R.
Proof. revert a; induction vs as [|v vs IH]; intros a; simpl; [ring|]. rewrite IH. ring. Qed.

Lemma tp_call_R dims fs xs vs : block_values dims fs xs vs ->
  tp_call Rops dims fs (concat xs) = Ok (fold_right Rmult 1%R vs).
Proof.
  intros H. rewrite (tp_call_ok Rops _ _ _ _ H). f_equal.
  change (vmul Rops) with Rmult. change (vc Rops 1%R) with 1%R. rewrite fold_left_Rmult. ring.
Qed.
