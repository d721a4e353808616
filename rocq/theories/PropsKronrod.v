(** * C41: a panel of quadgk and the assembled Kronrod rule *)
From Coq Require Import List Arith Bool ZArith QArith Reals Lra Lia Permutation.
From Verif Require Import Py RSum EnumFacts ModelNd ModelShapes ModelNodes ModelModes ModelQuad ModelGauss ModelKronrod.
From Verif Require Import ProofMonomial ProofQuad PropsTools ProofGauss2 ProofKronrod.
Import ListNotations.
Local Open Scope R_scope.

Lemma np_insert_length x l : length (np_insert x l) = S (length l).
Proof. induction l as [|y l IH]; [reflexivity|]. cbn [np_insert]. destruct (Rle_dec x y); cbn [length]; [easy|]. now rewrite IH. Qed.
Lemma np_sort_length l : length (np_sort l) = length l.
Proof. unfold np_sort. induction l as [|x l IH]; [reflexivity|]. cbn [fold_right]. rewrite np_insert_length. cbn [length]. now rewrite IH. Qed.
(** numpy.linalg.eigvalsh returns as many numbers as the matrix has rows. *)
Definition eigvalsh_sized (eigvalsh : eigvalsh_t) : Prop := forall m A, length (eigvalsh m A) = m.
(** The size of a rule's data. *)
Definition rule_size (n : nat) (data : list R * list R * list R) : Prop :=
  let '(x, w, gw) := data in length x = (n + 1)%nat /\ length w = (n + 1)%nat /\ length gw = ((n + 1) / 2)%nat.

(** kronrod returns data of this size, or refuses n = 0. *)
Theorem C41_size eigvalsh n : eigvalsh_sized eigvalsh ->
  kronrod eigvalsh 0 = Err ValueError
  /\ ((1 <= n)%nat -> exists data, kronrod eigvalsh n = Ok data /\ rule_size n data).
Proof.
  intros H. split; [reflexivity|]. intros Hn. unfold kronrod. destruct (Nat.ltb_spec n 1); [lia|]. eexists. split; [reflexivity|].
  unfold rule_size, eignewt, odd_range. rewrite !map_length, firstn_length, np_sort_length, H, !seq_length. repeat split; lia.
Qed.

(** The panel (a, b): [P] maps [-1, 1] to it, [nodes] are the nodes of the assembled
    rule (those of the Gauss rule and the others).  The integral is the assembled
    rule's, the error is the distance to the embedded Gauss rule's, and the integrand
    is called at the images of the nodes, each once. *)
Theorem C41_panel n data phi a b : (1 <= n)%nat -> rule_size n data ->
  let k := assemble_kronrod n data in
  let '(x, w, gw) := data in
  let P := fun y => (a + b) / 2 + (b - a) / 2 * y in
  let gauss_nodes := map (fun p => nth 0 p 0) (q_nodes (kr_gauss k)) in
  exists calls KI GI sg,
    evalrule (feval (fun t => Ok (phi t))) (Fin a) (Fin b) x w gw = (calls, Ok sg)
    /\ seg_a sg = a /\ seg_b sg = b
    /\ kr_call k (fun y => Ok (phi (P y))) = Ok KI /\ seg_int sg = (b - a) / 2 * KI
    /\ q_call (kr_gauss k) (fun p => Ok (phi (P (nth 0 p 0)))) = Ok GI /\ seg_err sg = Rabs ((b - a) / 2 * (KI - GI))
    /\ Permutation calls (map P (gauss_nodes ++ kr_nodes k))
    /\ length calls = (2 * n + 1)%nat /\ length gauss_nodes = n /\ length (kr_nodes k) = (n + 1)%nat.
Proof.
  intros Hn. destruct data as [[x w] gw]. intros (Lx & Lw & Lg). cbv zeta.
  destruct (panel_eval phi a b x w gw n Hn Lx Lw Lg) as (pts & I & G & E1 & E2 & E3 & E4 & E5).
  set (k := assemble_kronrod n (x, w, gw)) in *.
  assert (EP : forall y, a + (1 + y) * (1 / 2 * (b - a)) = (a + b) / 2 + (b - a) / 2 * y) by (intros; field).
  assert (LG : length (map (fun p => nth 0 p 0) (q_nodes (kr_gauss k))) = n /\ length (kr_nodes k) = (n + 1)%nat).
  { apply Permutation_length in E2. rewrite E3 in E2. unfold panel_nodes in E2. rewrite map_length, app_length in E2. fold k in E2.
    assert (K : length (kr_nodes k) = (n + 1)%nat); [|lia].
    unfold k, assemble_kronrod. destruct (Nat.even n) eqn:EV.
    - apply Nat.even_spec in EV. destruct EV as [p EV]. destruct (evens_even p x ltac:(lia)) as [X1 X2].
      assert (M2 : (n mod 2 = 0)%nat) by (rewrite EV; replace (2 * p)%nat with (p * 2)%nat by lia; now rewrite Nat.mod_mul by lia). rewrite M2.
      cbn [Nat.eqb kr_nodes]. rewrite X1, removelast_map_seq. repeat (rewrite map_length || rewrite app_length || rewrite rev_length || rewrite seq_length). cbn [length]. lia.
    - assert (OD : Nat.Odd n) by (apply Nat.odd_spec; unfold Nat.odd; now rewrite EV). destruct OD as [p OD]. destruct (evens_odd p x ltac:(lia)) as [X1 X2].
      assert (M2 : (n mod 2 = 1)%nat) by (rewrite OD; replace (2 * p + 1)%nat with (1 + p * 2)%nat by lia; now rewrite Nat.mod_add by lia). rewrite M2.
      cbn [Nat.eqb kr_nodes]. rewrite X1. repeat (rewrite map_length || rewrite app_length || rewrite rev_length || rewrite seq_length). cbn [length]. lia. }
  exists pts, I, G. eexists. split; [exact E1|]. split; [reflexivity|]. split; [reflexivity|].
  split; [|split; [|split; [|split; [|split; [|split; [|exact LG]]]]]].
  - rewrite <- E4. unfold kr_call. assert (M : forall l : list (list R), mapM (fun p => Ok (phi ((a + b) / 2 + (b - a) / 2 * nth 0 p 0))) l = mapM (fun p => Ok (phi (a + (1 + nth 0 p 0) * (1 / 2 * (b - a))))) l).
    { intros l. rewrite !mapM_total. f_equal. apply map_ext. intros p. now rewrite EP. }
    rewrite M. assert (M' : forall l : list R, mapM (fun y => Ok (phi ((a + b) / 2 + (b - a) / 2 * y))) l = mapM (fun y => Ok (phi (a + (1 + y) * (1 / 2 * (b - a))))) l).
    { intros l. rewrite !mapM_total. f_equal. apply map_ext. intros p. now rewrite EP. }
    now rewrite M'.
  - cbn [seg_int]. field.
  - rewrite <- E5. unfold q_call. assert (M : forall l : list (list R), mapM (fun p => Ok (phi ((a + b) / 2 + (b - a) / 2 * nth 0 p 0))) l = mapM (fun p => Ok (phi (a + (1 + nth 0 p 0) * (1 / 2 * (b - a))))) l).
    { intros l. rewrite !mapM_total. f_equal. apply map_ext. intros p. now rewrite EP. }
    now rewrite M.
  - cbn [seg_err]. f_equal. field.
  - rewrite E2. unfold panel_nodes. fold k. erewrite map_ext; [reflexivity|]. intros y. cbv beta. apply EP.
  - exact E3.
Qed.

(** The assembled rules are symmetric about the centre: nodes and weights read
    backwards are the negated nodes and the weights. *)
Theorem C41_symmetric n data : (1 <= n)%nat -> rule_size n data ->
  let k := assemble_kronrod n data in
  let gn := map (fun p => nth 0 p 0) (q_nodes (kr_gauss k)) in
  rev (kr_nodes k) = map Ropp (kr_nodes k) /\ rev gn = map Ropp gn
  /\ rev (kr_weights k) = kr_weights k /\ rev (kr_gauss_weights k) = kr_gauss_weights k /\ rev (q_weights (kr_gauss k)) = q_weights (kr_gauss k).
Proof.
  intros Hn. destruct data as [[x w] gw]. intros (Lx & Lw & Lg). cbv zeta. unfold assemble_kronrod.
  assert (S1 : forall l : list R, rev (l ++ map Ropp (rev l)) = map Ropp (l ++ map Ropp (rev l))).
  { intros l. rewrite rev_app_distr, map_app, map_map, <- map_rev, rev_involutive. f_equal.
    transitivity (map (fun y => y) (rev l)); [now rewrite map_id|]. apply map_ext. intros; ring. }
  assert (S2 : forall l : list R, rev (l ++ [0] ++ map Ropp (rev l)) = map Ropp (l ++ [0] ++ map Ropp (rev l))).
  { intros l. rewrite !rev_app_distr, !map_app, map_map, <- map_rev, rev_involutive, <- app_assoc. f_equal. cbn [rev map app]. apply cons_eq; [ring|].
    transitivity (map (fun y => y) (rev l)); [now rewrite map_id|]. apply map_ext. intros; ring. }
  assert (S3 : forall l : list R, rev (l ++ rev l) = l ++ rev l) by (intros l; now rewrite rev_app_distr, rev_involutive).
  assert (S4 : forall (l : list R) c, rev (l ++ [c] ++ rev l) = l ++ [c] ++ rev l).
  { intros l c. now rewrite !rev_app_distr, rev_involutive, <- app_assoc. }
  assert (G0 : forall l : list R, map (fun p => nth 0 p 0) (map (fun t => [t]) l) = l).
  { intros l. rewrite map_map. cbn [nth]. apply map_id. }
  destruct (n mod 2 =? 1)%nat; cbn [kr_nodes kr_weights kr_gauss_weights kr_gauss q_nodes q_weights]; rewrite G0; auto 10.
Qed.

(** ** A rule, n = 1: nodes -sqrt(3/5), 0, sqrt(3/5) *)
Definition rule1 : list R * list R * list R := ([- sqrt (3 / 5); 0], [5 / 9; 8 / 9], [2]).
Definition rule2 : list R * list R * list R := ([-9/10; -1/2; 0], [1/5; 1/2; 3/5], [1]).
Example C41_ex1 : rule_size 1 rule1 /\ kr_nodes (assemble_kronrod 1 rule1) = [- sqrt (3 / 5); - - sqrt (3 / 5)]
  /\ map (fun p => nth 0 p 0) (q_nodes (kr_gauss (assemble_kronrod 1 rule1))) = [0]
  /\ kr_weights (assemble_kronrod 1 rule1) = [5/9; 5/9] /\ kr_gauss_weights (assemble_kronrod 1 rule1) = [8/9].
Proof. repeat split. Qed.
Example C41_ex2 : rule_size 2 rule2 /\ kr_nodes (assemble_kronrod 2 rule2) = [-9/10; 0; - (-9/10)]
  /\ map (fun p => nth 0 p 0) (q_nodes (kr_gauss (assemble_kronrod 2 rule2))) = [-1/2; - (-1/2)].
Proof. repeat split. Qed.
Example C41_sized_ex : eigvalsh_sized (fun m A => map (fun i => A i i) (seq 0 m)).
Proof. intros m A. now rewrite map_length, seq_length. Qed.

Print Assumptions C41_size.
Print Assumptions C41_panel.
Print Assumptions C41_symmetric.
