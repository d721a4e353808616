(** * Coefficients of the coordinate maps, and points of the simplex *)
From Coquelicot Require Import Coquelicot.
From Coq Require Import List Arith Bool ZArith Reals Lra Lia Uint63 Factorial.
From Verif Require Import Py ModelShapes ModelQuad ModelTables.
From Verif Require Import RSum EnumFacts SpecIndex SpecGeometry SpecPoly SpecIntegral ProofDirichlet ProofQuad PropsQuad PropsTools ProofFixed ProofFixed2 ProofTables ProofTables2.
Import ListNotations.
Local Open Scope R_scope.

(** num / den and sqrt (num / den), rounded. *)
Definition coefQ (sh num den : Z) : Z := (num * maxv sh / den)%Z.
Definition coefS (sh num den : Z) : Z := Z.sqrt (num * (maxv sh * maxv sh) / den).

Lemma near_0 sh : (0 <= sh)%Z -> near_coef sh 0 0.
Proof.
  intros H. pose proof (maxv_pos sh H) as P. unfold near_coef. replace (0 / IZR (maxv sh) - 0) with 0 by (field; lra). rewrite Rabs_R0.
  unfold Rdiv. rewrite Rmult_1_l. left. now apply Rinv_0_lt_compat.
Qed.
Lemma near_opp sh c a : near_coef sh (IZR c) a -> near_coef sh (IZR (- c)) (- a).
Proof.
  unfold near_coef. rewrite opp_IZR. intros H. replace (- IZR c / IZR (maxv sh) - - a) with (- (IZR c / IZR (maxv sh) - a)) by (unfold Rdiv; ring). now rewrite Rabs_Ropp.
Qed.
Lemma near_unit sh A x : (0 <= sh)%Z -> A <= x * IZR (maxv sh) <= A + 1 -> near_coef sh A x.
Proof.
  intros H HA. pose proof (maxv_pos sh H) as P. unfold near_coef.
  replace (A / IZR (maxv sh) - x) with ((A - x * IZR (maxv sh)) * / IZR (maxv sh)) by (field; lra).
  rewrite Rabs_mult, (Rabs_pos_eq (/ IZR (maxv sh))) by (left; now apply Rinv_0_lt_compat). unfold Rdiv.
  apply Rmult_le_compat_r; [left; now apply Rinv_0_lt_compat|]. apply Rabs_le. lra.
Qed.
Lemma near_Q sh num den : (0 <= sh)%Z -> (0 < den)%Z -> near_coef sh (IZR (coefQ sh num den)) (IZR num / IZR den).
Proof.
  intros H Hd. apply near_unit; [easy|]. pose proof (floor_err (num * maxv sh) den Hd) as F. fold (coefQ sh num den) in F. rewrite mult_IZR in F.
  assert (0 < IZR den) by now apply IZR_lt.
  replace (IZR num * IZR (maxv sh) / IZR den) with (IZR num / IZR den * IZR (maxv sh)) in F by (field; lra). lra.
Qed.
Lemma near_S sh num den : (0 <= sh)%Z -> (0 <= num)%Z -> (0 < den)%Z -> near_coef sh (IZR (coefS sh num den)) (R_sqrt.sqrt (IZR num / IZR den)).
Proof.
  intros H Hn Hd. apply near_unit; [easy|]. pose proof (maxv_pos sh H) as P. assert (Pd : 0 < IZR den) by now apply IZR_lt.
  assert (Pn : 0 <= IZR num) by now apply IZR_le. set (N := (num * (maxv sh * maxv sh) / den)%Z).
  assert (M0 : (0 < maxv sh)%Z) by now apply lt_IZR.
  assert (N0 : (0 <= N)%Z) by (apply Z.div_pos; nia).
  pose proof (Z.sqrt_spec N N0) as (S1 & S2). pose proof (Z.sqrt_nonneg N) as S0. change (Z.sqrt N) with (coefS sh num den) in S0, S1, S2. set (A := coefS sh num den) in *.
  pose proof (floor_err (num * (maxv sh * maxv sh)) den Hd) as F. fold N in F. rewrite !mult_IZR in F.
  assert (Q0 : 0 <= IZR num / IZR den) by (apply Rmult_le_pos; [easy|left; now apply Rinv_0_lt_compat]).
  pose proof (R_sqrt.sqrt_sqrt _ Q0) as SS. pose proof (R_sqrt.sqrt_pos (IZR num / IZR den)) as SP. set (x := R_sqrt.sqrt (IZR num / IZR den)) in *.
  replace (IZR num * (IZR (maxv sh) * IZR (maxv sh)) / IZR den) with ((x * IZR (maxv sh)) * (x * IZR (maxv sh))) in F.
  2:{ replace (x * IZR (maxv sh) * (x * IZR (maxv sh))) with ((x * x) * (IZR (maxv sh) * IZR (maxv sh))) by ring. rewrite SS. field. lra. }
  assert (Y0 : 0 <= x * IZR (maxv sh)) by nra. set (y := x * IZR (maxv sh)) in *.
  apply IZR_le in S1. rewrite mult_IZR in S1. apply IZR_le in S0.
  assert (S3 : (N + 1 <= (A + 1) * (A + 1))%Z) by (unfold Z.succ in S2; lia). apply IZR_le in S3. rewrite mult_IZR, !plus_IZR in S3.
  split.
  - destruct (Rle_or_lt (IZR A) y); [easy|]. exfalso. nra.
  - destruct (Rle_or_lt y (IZR A + 1)); [easy|]. exfalso. nra.
Qed.
Lemma near_S' sh num den x : (0 <= sh)%Z -> (0 <= num)%Z -> (0 < den)%Z -> 0 <= x -> x * x = IZR num / IZR den -> near_coef sh (IZR (coefS sh num den)) x.
Proof. intros H Hn Hd Hx E. replace x with (R_sqrt.sqrt (IZR num / IZR den)); [now apply near_S|]. rewrite <- E. now apply R_sqrt.sqrt_square. Qed.

(** ** Points of the simplex *)
Lemma inside_simplex_ok sh d vs us : (0 <= sh)%Z -> inside_simplex sh d vs = true -> length vs = d ->
  Forall2 (fun V u => Rabs (IZR V / IZR (maxv sh) - u) <= 1 / IZR wB) vs us ->
  Forall (fun u => 0 <= u) us /\ list_sum us <= 1.
Proof.
  intros H HI L HN. unfold inside_simplex in HI. apply andb_true_iff in HI. destruct HI as (H1 & H2). apply Z.leb_le in H2.
  pose proof (maxv_pos sh H) as PM. pose proof wB_pos as PW. pose proof (maxv_wB sh H) as EM. assert (P2 : 0 < IZR (2 ^ sh)) by (apply IZR_lt, Z.pow_pos_nonneg; lia).
  assert (EU : 1 / IZR wB = IZR (2 ^ sh) / IZR (maxv sh)) by (rewrite EM, mult_IZR; field; lra). rewrite EU in HN.
  assert (G : Forall (fun u => 0 <= u) us /\ list_sum us * IZR (maxv sh) <= IZR (fold_right Z.add 0%Z vs) + INR (length vs) * IZR (2 ^ sh)).
  { clear H2 L. revert H1. induction HN as [|V u vs us HV _ IH]; intros H1.
    - split; [constructor|]. cbn. lra.
    - cbn [forallb] in H1. apply andb_true_iff in H1. destruct H1 as (H1 & H1'). destruct (IH H1') as (I1 & I2). apply Z.leb_le in H1. apply IZR_le in H1.
      apply Rabs_le_between in HV. assert (HV' : - IZR (2 ^ sh) <= IZR V - u * IZR (maxv sh) <= IZR (2 ^ sh)).
      { replace (IZR V / IZR (maxv sh) - u) with ((IZR V - u * IZR (maxv sh)) / IZR (maxv sh)) in HV by (field; lra). destruct HV as (V1 & V2). split.
        - apply Rmult_le_reg_r with (/ IZR (maxv sh)); [now apply Rinv_0_lt_compat|]. unfold Rdiv in V1. lra.
        - apply Rmult_le_reg_r with (/ IZR (maxv sh)); [now apply Rinv_0_lt_compat|]. exact V2. }
      split.
      + constructor; [|easy]. destruct (Rle_or_lt 0 u); [easy|]. exfalso. nra.
      + change (list_sum (u :: us)) with (u + list_sum us). cbn [fold_right length]. rewrite plus_IZR, S_INR. nra. }
  destruct G as (G1 & G2). split; [exact G1|]. rewrite L in G2. apply IZR_le in H2. rewrite plus_IZR, mult_IZR, <- INR_IZR_INZ in H2.
  apply Rmult_le_reg_r with (IZR (maxv sh)); [easy|]. lra.
Qed.
Lemma simplex_units us : Forall (fun u => 0 <= u) us -> list_sum us <= 1 -> Forall unitv us.
Proof.
  intros H. induction H as [|u us Hu H IH]; intros HS; [constructor|]. change (list_sum (u :: us)) with (u + list_sum us) in HS.
  assert (P : 0 <= list_sum us) by (clear -H; induction H; [cbn; lra|]; change (0 <= x + list_sum l); lra).
  constructor; [split; lra|]. apply IH. lra.
Qed.
Lemma simplex_node d us : length us = d -> Forall (fun u => 0 <= u) us -> list_sum us <= 1 -> in_simplex d (map (fun u => 2 * u - 1) us).
Proof.
  intros L H HS. apply in_sx_simplex. split; [now rewrite map_length|]. split.
  - apply Forall_map. eapply Forall_impl; [|exact H]. cbv beta. intros; lra.
  - rewrite map_map. replace (list_sum (map (fun x => 2 * x - 1 + 1) us)) with (2 * list_sum us); [lra|].
    clear. unfold list_sum. induction us as [|u us IH]; cbn [map fold_right]; [ring|]. rewrite <- IH. ring.
Qed.
Lemma cube_node us : Forall unitv us -> in_shape (TPShape CHypercube (length us) (repeat (Simplex 1) (length us))) (map (fun u => 2 * u - 1) us).
Proof.
  intros H. apply in_shape_TP. induction H as [|u us Hu H IH]; cbn [length repeat map in_shapes]; [reflexivity|].
  exists [2 * u - 1], (map (fun u => 2 * u - 1) us). split; [reflexivity|]. split; [|exact IH].
  cbn [in_shape]. unfold in_simplex. cbn. destruct Hu. repeat split; [constructor; [lra|constructor]|lra].
Qed.

(** ** Equilateral coordinates *)
Definition Z10 (k : Z) : Z := (10 ^ k)%Z.
Definition equi2 (sh k : Z) : list (Z * list Z) :=
  [(coefQ sh 1 3, [coefQ sh 1 (2 * Z10 k); - coefS sh 1 (12 * Z10 (2 * k))]%Z); (coefQ sh 1 3, [0; coefS sh 1 (3 * Z10 (2 * k))]%Z)].
Definition equi3 (sh k : Z) : list (Z * list Z) :=
  [(coefQ sh 1 4, [coefQ sh 1 (2 * Z10 k); - coefS sh 1 (12 * Z10 (2 * k)); - coefS sh 1 (24 * Z10 (2 * k))]%Z);
   (coefQ sh 1 4, [0; coefS sh 1 (3 * Z10 (2 * k)); - coefS sh 1 (24 * Z10 (2 * k))]%Z);
   (coefQ sh 1 4, [0; 0; coefS sh 3 (8 * Z10 (2 * k))]%Z)].
