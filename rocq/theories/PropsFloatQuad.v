(** * C77, C78: applying and transforming quadrature rules in double precision *)
From Flocq Require Import Core Sterbenz.
From Coquelicot Require Import Coquelicot.
From Coq Require Import List Arith Bool ZArith Reals Permutation Lra Lia.
From Verif Require Import Py PyToolsModel ModelNd ModelShapes ModelSpaces ModelNodes ModelQuad ModelFloat ProofFloat ProofFloat4 ProofFloat5.
Import ListNotations.
Local Open Scope R_scope.

(** Sum of |w_i v_i|. *)
Definition abs_dot (w v : list R) : R := fold_right Rplus 0 (map (fun p => Rabs (fst p * snd p)) (combine w v)).
(** Unit roundoff and half the least positive double. *)
Definition u : R := / 2 ^ 53.
Definition eta : R := / 2 ^ 1075.
Lemma eta_eq : eta = eta64.
Proof. unfold eta, eta64. rewrite pow_powerRZ, <- (bpow_powerRZ radix2). rewrite <- bpow_opp. reflexivity. Qed.
Definition dot_bound (w v : list R) : R :=
  ((1 + u) ^ length w - 1) * abs_dot w v + INR (length w) * (1 + u) ^ length w * eta.

(** ** C77.  Whatever the order of summation and the use of fused multiply-add, the result of
    [np.dot] differs from the exact sum by at most ((1 + u)^n - 1) sum |w_i v_i| + n (1 + u)^n eta; *)
Theorem C77_error w v r : length w = length v -> dot64 (combine w v) r -> Rabs (r - dotR w v) <= dot_bound w v.
Proof.
  intros HL H. pose proof (dot64_err _ _ H) as E. unfold err64, g64 in E. rewrite combine_length, <- HL, Nat.min_id in E. unfold dot_bound. rewrite eta_eq. exact E.
Qed.
(** hence [q(f)] in double precision raises what it raises in exact arithmetic and differs from
    its value by no more than that. *)
Theorem C77_call q f out : q_call64 q f out ->
  match q_call q f with
  | Err e => out = Err e
  | Ok s => exists vals r, mapM f (q_nodes q) = Ok vals /\ out = Ok r /\ Rabs (r - s) <= dot_bound (q_weights q) vals
  end.
Proof.
  intros H. unfold q_call. destruct H as [e E|vals E HL|vals r E HL HD]; rewrite E; cbn [bind].
  - reflexivity.
  - destruct (Nat.eqb_spec (length (q_weights q)) (length vals)); [easy|reflexivity].
  - destruct (Nat.eqb_spec (length (q_weights q)) (length vals)); [|easy]. exists vals, r. split; [easy|]. split; [easy|]. now apply C77_error.
Qed.
(** There is always a result, *)
Theorem C77_defined q f : exists out, q_call64 q f out.
Proof.
  destruct (mapM f (q_nodes q)) as [vals|e] eqn:E; [|exists (Err e); now constructor].
  destruct (Nat.eq_dec (length (q_weights q)) (length vals)) as [HL|HL]; [|exists (Err ValueError); eapply call64_shape; eauto].
  destruct (dot64_exists (combine (q_weights q) vals)) as (r & Hr). exists (Ok r). eapply call64_ok; eauto.
Qed.
(** it is exact if all products are integers (or integer multiples of one power of two) whose moduli add up to at most 2^53 (of them), *)
Theorem C77_exact e w v r : (-1074 <= e)%Z -> length w = length v ->
  (forall i, (i < length w)%nat -> exists m : Z, nth i w 0 * nth i v 0 = IZR m * powerRZ 2 e) ->
  abs_dot w v <= powerRZ 2 (53 + e) -> dot64 (combine w v) r -> r = dotR w v.
Proof.
  intros He HL HM HB H. refine (dot64_exact e _ _ He H _ _).
  - apply Forall_forall. intros p Hp. destruct (In_nth _ _ (0, 0) Hp) as (i & Hi & <-). rewrite combine_length in Hi. rewrite combine_nth by easy. cbn [fst snd].
    destruct (HM i ltac:(lia)) as (m & E). exists m. rewrite E, (bpow_powerRZ radix2). reflexivity.
  - rewrite (bpow_powerRZ radix2). exact HB.
Qed.
(** and not negative if no product is. *)
Theorem C77_nonneg w v r : length w = length v -> (forall i, (i < length w)%nat -> 0 <= nth i w 0 * nth i v 0) ->
  dot64 (combine w v) r -> 0 <= r.
Proof.
  intros HL HM H. apply (dot64_nonneg _ _ H). apply Forall_forall. intros p Hp. destruct (In_nth _ _ (0, 0) Hp) as (i & Hi & <-). rewrite combine_length in Hi. rewrite combine_nth by easy. cbn [fst snd]. apply HM. lia.
Qed.
(** Results for the nodes in two orders (or two libraries) differ by at most twice the bound. *)
Theorem C77_order w v w' v' r r' : length w = length v -> length w' = length v' -> Permutation (combine w v) (combine w' v') ->
  dot64 (combine w v) r -> dot64 (combine w' v') r' -> Rabs (r - r') <= 2 * dot_bound w v.
Proof.
  intros HL HL' HP H H'. apply (dot64_perm _ _ _ (Permutation_sym HP)) in H'. pose proof (C77_error w v r HL H) as A. pose proof (C77_error w v r' HL H') as B.
  replace (r - r') with ((r - dotR w v) - (r' - dotR w v)) by ring. eapply Rle_trans; [apply Rabs_triang|]. rewrite Rabs_Ropp. lra.
Qed.

(** Total error: an ideal rule with weights [W] and error at most [del] for the function with values [F] at its nodes; the weights and values
    in use are off by at most [ew] and [ev]. *)
Definition sum_abs (w : list R) : R := fold_right Rplus 0 (map Rabs w).
Theorem C77_total W F w v r I del ew ev B :
  length w = length W -> length F = length W -> length v = length W ->
  (forall i, (i < length W)%nat -> Rabs (nth i w 0 - nth i W 0) <= ew /\ Rabs (nth i v 0 - nth i F 0) <= ev /\ Rabs (nth i F 0) <= B) ->
  Rabs (dotR W F - I) <= del -> dot64 (combine w v) r ->
  Rabs (r - I) <= del + sum_abs W * ev + INR (length W) * ew * (B + ev)
    + ((1 + u) ^ length W - 1) * ((sum_abs W + INR (length W) * ew) * (B + ev)) + INR (length W) * (1 + u) ^ length W * eta.
Proof.
  intros L1 L2 L3 HN HI HD. pose proof (C77_error w v r ltac:(lia) HD) as HE. unfold dot_bound in HE. rewrite L1 in HE.
  assert (G : abs_dot w v <= (sum_abs W + INR (length W) * ew) * (B + ev) /\ Rabs (dotR w v - dotR W F) <= sum_abs W * ev + INR (length W) * ew * (B + ev)).
  { clear HI HD HE. unfold abs_dot, dotR, sum_abs. revert F w v L1 L2 L3 HN. induction W as [|a W IH]; intros [|f F] [|b w] [|g v] L1 L2 L3 HN; try discriminate.
    - cbn [combine map fold_right length INR]. split; [lra|]. rewrite Rminus_0_r, Rabs_R0. lra.
    - destruct (IH F w v ltac:(cbn in *; lia) ltac:(cbn in *; lia) ltac:(cbn in *; lia)) as [I1 I2]. { intros i Hi. exact (HN (S i) ltac:(cbn; lia)). }
      destruct (HN 0%nat ltac:(cbn; lia)) as (A1 & A2 & A3). cbn [nth] in A1, A2, A3. cbn [combine map fold_right length fst snd]. rewrite S_INR.
      assert (Rb : Rabs b <= Rabs a + ew). { replace b with ((b - a) + a) by ring. eapply Rle_trans; [apply Rabs_triang|]. lra. }
      assert (Rg : Rabs g <= B + ev). { replace g with ((g - f) + f) by ring. eapply Rle_trans; [apply Rabs_triang|]. lra. }
      pose proof (Rabs_pos a). pose proof (Rabs_pos b). pose proof (Rabs_pos g). pose proof (Rabs_pos (b - a)). pose proof (Rabs_pos (g - f)).
      assert (P1 : Rabs (b * g) <= (Rabs a + ew) * (B + ev)) by (rewrite Rabs_mult; apply Rmult_le_compat; lra).
      assert (P2 : Rabs (b * g - a * f) <= Rabs a * ev + ew * (B + ev)).
      { replace (b * g - a * f) with (a * (g - f) + (b - a) * g) by ring. eapply Rle_trans; [apply Rabs_triang|]. rewrite !Rabs_mult. apply Rplus_le_compat; [apply Rmult_le_compat_l; lra|apply Rmult_le_compat; lra]. }
      split; [lra|]. match goal with |- Rabs (b * g + ?x - (a * f + ?y)) <= _ => replace (b * g + x - (a * f + y)) with ((b * g - a * f) + (x - y)) by ring end.
      eapply Rle_trans; [apply Rabs_triang|]. lra. }
  destruct G as [G1 G2]. replace (r - I) with ((r - dotR w v) + (dotR w v - dotR W F) + (dotR W F - I)) by ring.
  eapply Rle_trans; [apply Rabs_triang|]. assert (Rabs (r - dotR w v + (dotR w v - dotR W F)) <= Rabs (r - dotR w v) + Rabs (dotR w v - dotR W F)) by apply Rabs_triang.
  assert (0 <= (1 + u) ^ length W - 1) by (pose proof (g64_1 (length W)); unfold g64 in *; change u with u64; lra).
  assert (((1 + u) ^ length W - 1) * abs_dot w v <= ((1 + u) ^ length W - 1) * ((sum_abs W + INR (length W) * ew) * (B + ev))) by (apply Rmult_le_compat_l; lra).
  lra.
Qed.

(** Integer weights and values are summed exactly. *)
Example C77_example : exists r, dot64 (combine [1; 4; 1] [5; 7; 11]) r /\ r = 44.
Proof.
  destruct (dot64_exists (combine [1; 4; 1] [5; 7; 11])) as (r & Hr). exists r. split; [easy|].
  rewrite (C77_exact 0 [1; 4; 1] [5; 7; 11] r); [unfold dotR; cbn; lra|lia|reflexivity| |unfold abs_dot; cbn [combine map fold_right fst snd]; change (53 + 0)%Z with 53%Z; rewrite !Rabs_right by lra; cbn [powerRZ]; replace (2 ^ Pos.to_nat 53) with (IZR (2 ^ 53)) by (rewrite (pow_IZR 2 (Pos.to_nat 53)); reflexivity); change (IZR (2 ^ 53)) with 9007199254740992; lra|easy].
  intros [|[|[|i]]] Hi; [exists 5%Z|exists 28%Z|exists 11%Z|cbn in Hi; lia]; cbn [nth powerRZ]; lra.
Qed.
Example C77_example_total : exists W F w v, length w = length W /\ length F = length W /\ length v = length W
  /\ (forall i, (i < length W)%nat -> Rabs (nth i w 0 - nth i W 0) <= / 2 ^ 50 /\ Rabs (nth i v 0 - nth i F 0) <= 0 /\ Rabs (nth i F 0) <= 2)
  /\ Rabs (dotR W F - 2) <= 0 /\ w <> W.
Proof.
  exists [/ 3; 4 / 3; / 3], [2; / 2; 2], [/ 3 + / 2 ^ 51; 4 / 3; / 3], [2; / 2; 2].
  assert (E : / 2 ^ 50 = 2 * / 2 ^ 51) by (field; apply pow_nonzero; lra). assert (P : 0 < / 2 ^ 51) by (apply Rinv_0_lt_compat, pow_lt; lra). rewrite E. set (k := / 2 ^ 51) in *.
  repeat (split; [reflexivity|]). split; [|split].
  - intros [|[|[|i]]] Hi; [| | |cbn in Hi; lia]; cbn [nth]; repeat split; rewrite ?Rminus_eq_0, ?Rabs_R0; try lra; apply Rabs_le; lra.
  - unfold dotR. cbn [combine map fold_right fst snd]. apply Rabs_le. lra.
  - intros K. injection K as K. lra.
Qed.

(** ** C78.  [Transformed1DQuadrature] in double precision; [left], [right] and the nodes are doubles ([fmt]).
    The interval is refused exactly if it is empty: rounding the length does not lose short intervals. *)
Theorem C78_refused q left right : fmt left -> fmt right -> (transformed_1d64 q left right = Err ValueError <-> right <= left).
Proof.
  intros Hl Hr. rewrite <- (len64_pos left right Hl Hr). unfold transformed_1d64. destruct (Rle_dec (rnd64 (right - left)) 0); split; intros H; try easy; discriminate.
Qed.
Definition node_of (q : quad) (i j : nat) : R := nth j (nth i (q_nodes q) []) 0.
(** Otherwise the result has the nodes and weights of the exact rule up to rounding errors, *)
Theorem C78_error q left right : fmt left -> fmt right -> left < right ->
  (forall x c, In x (q_nodes q) -> In c x -> fmt c /\ -1 <= c <= 1) ->
  exists q1 q2, transformed_1d64 q left right = Ok q1 /\ transformed_1d q left right = Ok q2
    /\ length (q_nodes q1) = length (q_nodes q) /\ length (q_weights q1) = length (q_weights q) /\ q_exact q1 = q_exact q
    /\ (forall i j, (i < length (q_nodes q))%nat -> (j < length (nth i (q_nodes q) []))%nat ->
          Rabs (node_of q1 i j - node_of q2 i j) <= u * (4 * (right - left) + Rmax (Rabs left) (Rabs right)) + 2 * eta)
    /\ forall i, (i < length (q_weights q))%nat ->
          Rabs (nth i (q_weights q1) 0 - nth i (q_weights q2) 0) <= 2 * u * (right - left) * Rabs (nth i (q_weights q) 0) + 2 * eta * (Rabs (nth i (q_weights q) 0) + 1).
Proof.
  intros Hl Hr H HN. unfold transformed_1d64, transformed_1d. destruct (Rle_dec (rnd64 (right - left)) 0) as [K|K]; [apply (len64_pos left right Hl Hr) in K; lra|]. destruct (Rle_dec (right - left) 0) as [K2|K2]; [lra|].
  eexists _, _. split; [reflexivity|]. split; [reflexivity|]. cbn [q_nodes q_weights q_exact]. split; [now rewrite map_length|]. split; [now rewrite map_length|]. split; [reflexivity|]. split.
  - intros i j Hi Hj. unfold node_of. cbn [q_nodes]. set (g := fun x : R => left + (x + 1) / 2 * (right - left)).
    rewrite (nth_indep _ [] (map (tnode64 left (rnd64 (right - left))) [])) by (now rewrite map_length). rewrite map_nth.
    rewrite (nth_indep (map (map g) _) [] (map g [])) by (now rewrite map_length). rewrite map_nth.
    set (x := nth i (q_nodes q) []) in *. rewrite (nth_indep _ 0 (tnode64 left (rnd64 (right - left)) 0)) by (now rewrite map_length). rewrite map_nth.
    rewrite (nth_indep (map g x) 0 (g 0)) by (now rewrite map_length). rewrite map_nth. unfold g.
    destruct (HN x (nth j x 0) ltac:(now apply nth_In) ltac:(now apply nth_In)) as [F B].
    pose proof (tnode64_err left right (nth j x 0) Hl Hr H F B) as E. rewrite eta_eq. change u with u64. lra.
  - intros i Hi. rewrite (nth_indep _ 0 (tweight64 (rnd64 (right - left)) 0)) by (now rewrite map_length). rewrite map_nth.
    set (g := fun w : R => (right - left) / 2 * w). rewrite (nth_indep (map g _) 0 (g 0)) by (now rewrite map_length). rewrite map_nth. unfold g.
    pose proof (tweight64_err left right (nth i (q_weights q) 0) Hl Hr H) as E. rewrite eta_eq. change u with u64. lra.
Qed.
(** the nodes are in the same order, none lies left of the interval, and the left end point is exact. *)
Theorem C78_order left right x y : fmt left -> fmt right -> left < right -> -1 <= x <= y ->
  left <= tnode64 left (rnd64 (right - left)) x <= tnode64 left (rnd64 (right - left)) y
  /\ tnode64 left (rnd64 (right - left)) (-1) = left.
Proof.
  intros Hl Hr H Hx. assert (P : 0 <= rnd64 (right - left)) by (apply rnd_nonneg; lra). split; [|now apply tnode64_left]. split; [|apply tnode64_mono; lra].
  rewrite <- (tnode64_left left (rnd64 (right - left)) Hl) at 1. apply tnode64_mono; lra.
Qed.
(** The right end point is not: the node for 1 can lie outside of the interval. *)
Theorem C78_right_refuted : exists q left right q1 x, fmt left /\ fmt right /\ left < right /\ q_nodes q = [[-1]; [1]]
  /\ transformed_1d64 q left right = Ok q1 /\ In [x] (q_nodes q1) /\ right < x.
Proof.
  destruct right_missed as (F1 & F2 & H & E). exists (mkQuad false 1 [[-1]; [1]] [1; 1] None), (-1), (3 * bpow radix2 (-54)).
  unfold transformed_1d64. destruct (Rle_dec (rnd64 (3 * bpow radix2 (-54) - -1)) 0) as [K|K]; [apply (len64_pos _ _ F1 F2) in K; lra|].
  eexists _, (4 * bpow radix2 (-54)). split; [easy|]. split; [easy|]. split; [easy|]. split; [reflexivity|]. split; [reflexivity|]. split; [|pose proof (bpow_gt_0 radix2 (-54)); lra].
  cbn [q_nodes map]. right. left. now rewrite E.
Qed.
(** On intervals with end points of the same sign within a factor two of each other (so that the length is exact), it is. *)
Theorem C78_right_exact left right : fmt left -> fmt right -> 0 < left < right -> right <= 2 * left ->
  tnode64 left (rnd64 (right - left)) 1 = right.
Proof.
  intros Hl Hr H1 H2. rewrite tnode64_right by apply rnd_fmt. assert (E : rnd64 (right - left) = right - left).
  { apply rnd_id. refine (Sterbenz.sterbenz radix2 (FLT_exp (-1074) 53) right left Hr Hl _). lra. }
  rewrite E. replace (left + (right - left)) with right by ring. now apply rnd_id.
Qed.
Example C78_example : fmt 2 /\ fmt 3 /\ (forall x c, In x [[-1]; [0]; [1]] -> In c x -> fmt c /\ -1 <= c <= 1).
Proof.
  split; [apply (fmt_Z 2), Z.leb_le, eq_refl|]. split; [apply (fmt_Z 3), Z.leb_le, eq_refl|].
  intros x c Hx Hc. destruct Hx as [<-|[<-|[<-|[]]]]; destruct Hc as [<-|[]]; (split; [|lra]); [apply (fmt_Z (-1))|apply (fmt_Z 0)|apply (fmt_Z 1)]; apply Z.leb_le, eq_refl.
Qed.

Print Assumptions C77_error.
Print Assumptions C77_call.
Print Assumptions C77_defined.
Print Assumptions C77_exact.
Print Assumptions C77_nonneg.
Print Assumptions C77_order.
Print Assumptions C77_total.
Print Assumptions C78_refused.
Print Assumptions C78_error.
Print Assumptions C78_order.
Print Assumptions C78_right_refuted.
Print Assumptions C78_right_exact.
