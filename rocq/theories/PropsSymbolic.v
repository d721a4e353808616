(** * C52: symbolic expressions evaluate to the numerical functions *)
From Coq Require Import List Arith Bool ZArith Reals Lia Lra.
From Verif Require Import Py PyToolsModel ModelModes ModelBasis ModelSymbolic ProofSymbolic.
Import ListNotations.
Local Open Scope R_scope.

(** Evaluating what [symbolicize_function] returned: an expression, or a tuple of them. *)
Definition eval_res (x : list R) (r : res sval) : res R :=
  match r with Ok v => Ok (evaluate x v) | Err e => Err e end.
Definition eval_tuple (x : list R) (r : res (list sval)) : res (list R) :=
  match r with Ok vs => Ok (map (evaluate x) vs) | Err e => Err e end.

(** [symbolicize_function f dim] stands for the function [g]: evaluated at any point with [dim]
    coordinates it gives what [g] gives there (or the same exception). *)
Definition stands_for (f : list sval -> res sval) (g : list R -> res R) : Prop :=
  forall x, eval_res x (symbolicize_function f (length x)) = g x.
Definition stands_for_gradient (f : list sval -> res (list sval)) (g : list R -> res (list R)) : Prop :=
  forall x, eval_tuple x (symbolicize_function f (length x)) = g x.
(** The lists of functions that the two instances of the code return correspond. *)
Definition same_list {A B} (P : A -> B -> Prop) (fs : res (list A)) (gs : res (list B)) : Prop :=
  match fs, gs with
  | Ok l, Ok l' => length l = length l' /\ forall i f g, nth_error l i = Some f -> nth_error l' i = Some g -> P f g
  | Err e, Err e' => e = e'
  | _, _ => False
  end.

Lemma stands_for_sim f g : (forall x, fun_sim (evaluate x) f g) -> stands_for f g.
Proof.
  intros Hs x. specialize (Hs x (make_sym_vector (length x))). rewrite evaluate_sym_vector in Hs.
  unfold symbolicize_function. destruct (f _) as [v|e], (g x) as [r|e']; cbn in *; try contradiction; [|congruence].
  unfold V in Hs. congruence.
Qed.
Lemma stands_for_gradient_sim f g : (forall x, grad_sim (evaluate x) f g) -> stands_for_gradient f g.
Proof.
  intros Hs x. specialize (Hs x (make_sym_vector (length x))). rewrite evaluate_sym_vector in Hs.
  unfold symbolicize_function. destruct (f _) as [v|e], (g x) as [r|e']; cbn in *; try contradiction; [|congruence].
  now rewrite (Forall2_V_eq _ _ _ Hs).
Qed.
Lemma Forall2_nth {A B} (P : A -> B -> Prop) l l' i a b : Forall2 P l l' -> nth_error l i = Some a -> nth_error l' i = Some b -> P a b.
Proof.
  intros H. revert i. induction H as [|u v l l' Huv H IH]; intros [|i]; cbn; try discriminate; [congruence|apply IH].
Qed.
Lemma same_list_rrel {A B} (P : A -> B -> Prop) (Q : list R -> A -> B -> Prop) fs gs :
  (forall f g, (forall x, Q x f g) -> P f g) -> (forall x, rrel (Forall2 (Q x)) fs gs) -> same_list P fs gs.
Proof.
  intros HP HQ. pose proof (HQ []) as H0. destruct fs as [fs|e], gs as [gs|e']; cbn in *; try assumption.
  split; [exact (Forall2_lengthS _ _ _ H0)|]. intros i f g Hf Hg. apply HP. intros x. exact (Forall2_nth _ _ _ _ _ _ (HQ x) Hf Hg).
Qed.

(** Jacobi polynomials, their derivatives and the scaled ones, as functions of one variable. *)
Theorem C52_jacobi : forall alpha beta n r,
  evaluate [r] (jacobi Sops alpha beta n (SEx (ECoord 0))) = jacobi Rops alpha beta n r /\
  evaluate [r] (grad_jacobi Sops alpha beta n (SEx (ECoord 0))) = grad_jacobi Rops alpha beta n r /\
  evaluate [r] (scaled_jacobi Sops alpha beta n (SEx (ECoord 0))) = scaled_jacobi Rops alpha beta n r.
Proof.
  intros. repeat split.
  - exact (ev_jacobi Sops _ (Sops_ok [r]) alpha beta n (SEx (ECoord 0))).
  - exact (ev_grad_jacobi Sops _ (Sops_ok [r]) alpha beta n (SEx (ECoord 0))).
  - exact (ev_scaled_jacobi Sops _ (Sops_ok [r]) alpha beta n (SEx (ECoord 0))).
Qed.

(** PKDO and monomial functions, for any mode. *)
Theorem C52_modes : forall order axis,
  stands_for (pkdo_1d Sops order) (pkdo_1d Rops order) /\
  stands_for_gradient (grad_pkdo_1d Sops order) (grad_pkdo_1d Rops order) /\
  stands_for (pkdo_2d_fn Sops order) (pkdo_2d_fn Rops order) /\
  stands_for_gradient (grad_pkdo_2d_fn Sops order) (grad_pkdo_2d_fn Rops order) /\
  stands_for (pkdo_3d_fn Sops order) (pkdo_3d_fn Rops order) /\
  stands_for_gradient (grad_pkdo_3d_fn Sops order) (grad_pkdo_3d_fn Rops order) /\
  stands_for (monomial Sops order) (monomial Rops order) /\
  stands_for_gradient (grad_monomial Sops order) (grad_monomial Rops order) /\
  stands_for (diff_monomial Sops order axis) (diff_monomial Rops order axis).
Proof.
  intros. repeat split; (apply stands_for_sim || apply stands_for_gradient_sim); intros y; pose proof (Sops_ok y) as K.
  - now apply sim_pkdo_1d.
  - now apply sim_grad_pkdo_1d.
  - now apply sim_pkdo_2d.
  - now apply sim_grad_pkdo_2d.
  - now apply sim_pkdo_3d.
  - now apply sim_grad_pkdo_3d.
  - now apply sim_monomial.
  - now apply sim_grad_monomial.
  - now apply sim_diff_monomial.
Qed.

(** The functions, gradients and derivatives of any basis (simplices and tensor products). *)
Theorem C52_functions : forall b, same_list stands_for (functions Sops b) (functions Rops b).
Proof.
  intros b. eapply same_list_rrel with (Q := fun x => fun_sim (evaluate x)).
  - exact stands_for_sim.
  - intros x. apply sim_functions, Sops_ok.
Qed.
Theorem C52_gradients : forall b, same_list stands_for_gradient (gradients Sops b) (gradients Rops b).
Proof.
  intros b. eapply same_list_rrel with (Q := fun x => grad_sim (evaluate x)).
  - exact stands_for_gradient_sim.
  - intros x. apply sim_gradients, Sops_ok.
Qed.
Theorem C52_derivatives : forall b axis, same_list stands_for (derivatives Sops b axis) (derivatives Rops b axis).
Proof.
  intros b axis. eapply same_list_rrel with (Q := fun x => fun_sim (evaluate x)).
  - exact stands_for_sim.
  - intros x. apply sim_derivatives, Sops_ok.
Qed.

(** The result does not depend on how the arithmetic of the expressions simplifies: it holds for any
    operations [o] and any evaluation [ev] that respects them. *)
Theorem C52_any_arithmetic : forall (T : Type) (o : vops T) (ev : T -> R), ev_ok o ev ->
  forall b, match functions o b, functions Rops b with
            | Ok fs, Ok gs => length fs = length gs /\
                forall i f g xs, nth_error fs i = Some f -> nth_error gs i = Some g ->
                match f xs with Ok v => g (map ev xs) = Ok (ev v) | Err e => g (map ev xs) = Err e end
            | Err e, Err e' => e = e'
            | _, _ => False
            end.
Proof.
  intros T o ev K b. pose proof (sim_functions o ev K b) as Hs.
  destruct (functions o b) as [fs|e], (functions Rops b) as [gs|e']; cbn in Hs; try assumption.
  split; [exact (Forall2_lengthS _ _ _ Hs)|]. intros i f g xs Hf Hg.
  pose proof (Forall2_nth _ _ _ _ _ _ Hs Hf Hg xs) as Hv.
  destruct (f xs), (g (map ev xs)); cbn in Hv; try contradiction; unfold V in *; congruence.
Qed.

Print Assumptions C52_jacobi.
Print Assumptions C52_modes.
Print Assumptions C52_functions.
Print Assumptions C52_gradients.
Print Assumptions C52_derivatives.
Print Assumptions C52_any_arithmetic.

(** The expressions are what one expects, not constants. *)
Lemma Req_1_1 {A} (u v : A) : (if Req_EM_T 1 1 then u else v) = u.
Proof. now destruct (Req_EM_T 1 1). Qed.
Example C52_example_monomial :
  symbolicize_function (monomial Sops [1; 2]%nat) 2 = Ok (SEx (EProd (ECoord 0) (EPow (ECoord 1) 2)))
  /\ eval_res [3; 5] (symbolicize_function (monomial Sops [1; 2]%nat) 2) = Ok 75.
Proof.
  assert (E : symbolicize_function (monomial Sops [1; 2]%nat) 2 = Ok (SEx (EProd (ECoord 0) (EPow (ECoord 1) 2)))).
  { unfold symbolicize_function, monomial, product. cbn. now rewrite Req_1_1. }
  split; [exact E|]. rewrite E. cbn. f_equal. ring.
Qed.
(** At the vertex where the collapsed coordinate is singular the [If] selects -1, as [_where] does. *)
Example C52_example_vertex :
  evaluate [-1; 1] (fst (rstoab Sops (SEx (ECoord 0)) (SEx (ECoord 1)))) = -1
  /\ evaluate [0; -1] (fst (rstoab Sops (SEx (ECoord 0)) (SEx (ECoord 1)))) = 0.
Proof.
  pose proof (ev_rstoab Sops _ (Sops_ok [-1; 1]) (SEx (ECoord 0)) (SEx (ECoord 1))) as E1.
  pose proof (ev_rstoab Sops _ (Sops_ok [0; -1]) (SEx (ECoord 0)) (SEx (ECoord 1))) as E2.
  unfold rstoab at 3 in E1. unfold rstoab at 3 in E2. apply (f_equal fst) in E1, E2. cbn [fst] in E1, E2. rewrite E1, E2. cbn.
  split.
  - replace (1 - 1) with 0 by ring. rewrite Rabs_R0. destruct (Rle_dec _ 0); [|reflexivity].
    exfalso. assert (0 < / 1000000000000) by (apply Rinv_0_lt_compat; lra). revert r. match goal with |- ?t <= 0 -> _ => replace t with (/ 1000000000000) by (f_equal; ring) end. lra.
  - destruct (Rle_dec _ _) as [|n]; [field|]. exfalso. apply n. replace (-1 - 1) with (-2) by ring.
    rewrite Rabs_left by lra. match goal with |- ?t <= _ => replace t with (/ 1000000000000) by (f_equal; ring) end.
    apply Rle_trans with 1; [|lra]. apply Rmult_le_reg_l with 1000000000000; [lra|]. rewrite Rinv_r; lra.
Qed.
(** A tensor-product basis is covered, too. *)
Example C52_example_prism : exists fs gs,
  functions Sops (TPBasis [SimplexONB 2 1; SimplexONB 1 2] [2; 1]%nat) = Ok fs /\
  functions Rops (TPBasis [SimplexONB 2 1; SimplexONB 1 2] [2; 1]%nat) = Ok gs /\ length fs = 9%nat /\
  forall i f g, nth_error fs i = Some f -> nth_error gs i = Some g -> stands_for f g.
Proof.
  pose proof (C52_functions (TPBasis [SimplexONB 2 1; SimplexONB 1 2] [2; 1]%nat)) as Hs.
  destruct (functions Sops _) as [fs|e] eqn:E1; [|discriminate E1].
  destruct (functions Rops _) as [gs|e] eqn:E2; [|discriminate E2].
  exists fs, gs. repeat split; [|apply Hs]. cbn in E1. apply (f_equal (fun r => match r with Ok l => length l | Err _ => 0%nat end)) in E1. cbn in E1. congruence.
Qed.
