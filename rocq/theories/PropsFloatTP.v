(** * C79: tensor-product quadrature rules in double precision *)
From Flocq Require Import Core.
From Coquelicot Require Import Coquelicot.
From Coq Require Import List Arith Bool ZArith Reals Permutation Lra Lia.
From Verif Require Import Py PyToolsModel ModelNd ModelShapes ModelSpaces ModelNodes ModelQuad EnumFacts SpecIndex ProofNodeTuples ProofTPNodes ProofQuad ModelFloat ProofFloat ProofFloat4 ProofFloat6 PropsFloatQuad.
From Verif Require ProofQuadSpace.
Import ListNotations.
Local Open Scope R_scope.

(** The product of a list. *)
Definition product (l : list R) : R := fold_right Rmult 1 l.
(** A weight that is zero, or neither tiny nor huge. *)
Definition moderate (k : nat) (w : R) : Prop := w = 0 \/ / 2 ^ k <= Rabs w <= 2 ^ k.
(** Relative error at most [eps]. *)
Definition close (eps v w : R) : Prop := Rabs (v - w) <= eps * Rabs w.
(** Relative error of a product of [d] factors of relative error [eps]. *)
Definition growth (eps : R) (d : nat) : R := (1 + eps) ^ d * (1 + u) ^ (d - 1) - 1.

Lemma bpow_pow k : bpow radix2 (Z.of_nat k) = 2 ^ k.
Proof. rewrite pow_powerRZ, <- (bpow_powerRZ radix2). reflexivity. Qed.
Lemma ranged_iff k w : ranged k w <-> / 2 ^ k <= Rabs w <= 2 ^ k.
Proof. unfold ranged. now rewrite bpow_opp, bpow_pow. Qed.
Lemma moderate_ranged k l : (forall w, In w l -> moderate k w) -> Forall (fun w => w = 0 \/ ranged k w) l.
Proof. intros H. apply Forall_forall. intros w Hw. destruct (H w Hw) as [E|E]; [now left|right; now apply ranged_iff]. Qed.

(** ** One weight: whatever the order of the multiplications, a product of [d] doubles that approximate
    the exact weights has relative error at most (1 + eps)^d (1 + u)^(d-1) - 1, and its size is bounded likewise. *)
Theorem C79_product eps k l L x : 0 <= eps -> Forall fmt l -> (forall w, In w l -> moderate k w) -> (k * length l <= 1022)%nat ->
  Forall2 (close eps) l L -> prod64 l x -> close (growth eps (length L)) x (product L).
Proof. intros He HF HM HK HC H. exact (prod64_total k eps l L x He H HF (moderate_ranged k l HM) HK HC). Qed.
(** Positive weights stay positive, and the product neither underflows nor overflows, *)
Theorem C79_positive k l x : Forall fmt l -> (forall w, In w l -> / 2 ^ k <= w <= 2 ^ k) -> (k * length l <= 1022)%nat ->
  prod64 l x -> / 2 ^ (k * length l) <= x <= 2 ^ (k * length l).
Proof.
  intros HF HM HK H. assert (P : forall w, In w l -> 0 <= w). { intros w Hw. destruct (HM w Hw) as [A _]. assert (0 < / 2 ^ k) by (apply Rinv_0_lt_compat, pow_lt; lra). lra. }
  destruct (prod64_rel k l x H HF) as (A & _); [|easy|].
  - apply Forall_forall. intros w Hw. apply ranged_iff. rewrite Rabs_pos_eq by auto. auto.
  - apply ranged_iff in A. rewrite Rabs_pos_eq in A; [easy|]. apply (prod64_nonneg l x H). apply Forall_forall. exact P.
Qed.
(** which without the bounds fails: *)
Theorem C79_positive_refuted : exists l x, Forall fmt l /\ (forall w, In w l -> 0 < w) /\ prod64 l x /\ x = 0.
Proof.
  exists ([bpow radix2 (-600)] ++ [bpow radix2 (-600)]), 0. split; [repeat constructor; apply fmt_bpow; lia|].
  split; [intros w [<-|[<-|[]]]; apply bpow_gt_0|]. split; [|easy]. rewrite <- underflow. constructor; constructor.
Qed.
(** Powers of two are multiplied exactly. *)
Theorem C79_powers_of_two k l x : (forall w, In w l -> exists e : Z, (- Z.of_nat k <= e <= Z.of_nat k)%Z /\ w = powerRZ 2 e) ->
  (k * length l <= 1022)%nat -> prod64 l x -> x = product l.
Proof.
  intros HM HK H. refine (proj1 (prod64_pow2 k l x H _ HK)). apply Forall_forall. intros w Hw. destruct (HM w Hw) as (e & B & ->). exists e. split; [easy|]. now rewrite (bpow_powerRZ radix2).
Qed.

(** ** The rule: exceptions, nodes and degree are those of exact arithmetic *)
Theorem C79_rule qs out : tp_quad64 qs out ->
  match tp_quad qs with
  | Err e => out = Err e
  | Ok Q => exists q, out = Ok q /\ q_flat q = q_flat Q /\ q_dim q = q_dim Q /\ q_nodes q = q_nodes Q /\ q_exact q = q_exact Q
              /\ length (q_weights q) = length (q_weights Q)
  end.
Proof.
  unfold tp_quad64, tp_quad. destruct (tensor_product_pts (map quad_points qs)) as [x|e]; cbn [bind]; [|easy].
  destruct (tensor_product_pts (map weight_points qs)) as [ws|e]; cbn [bind]; [|easy]. intros (w & H2 & ->). rewrite map_length, <- (EnumFacts.Forall2_length _ _ _ H2).
  destruct (negb (length (pts_cols ws) =? length (pts_cols x))%nat); [reflexivity|]. destruct (match qs with [] => _ | _ => _ end) as [ex|e]; cbn [bind]; [|reflexivity].
  eexists. split; [reflexivity|]. cbn [q_flat q_dim q_nodes q_exact q_weights]. rewrite map_length. now rewrite (EnumFacts.Forall2_length _ _ _ H2).
Qed.
Theorem C79_defined qs : exists out, tp_quad64 qs out.
Proof.
  unfold tp_quad64. destruct (tensor_product_pts (map quad_points qs)) as [x|e]; [|now exists (Err e)]. destruct (tensor_product_pts (map weight_points qs)) as [ws|e]; [|now exists (Err e)].
  assert (G : forall l, exists w, Forall2 prod64 l w). { induction l as [|c l (w & IH)]; [exists []; constructor|]. destruct (prod64_exists c) as (y & Hy). exists (y :: w). now constructor. }
  destruct (G (pts_cols ws)) as (w & Hw). eexists. exists w. split; [exact Hw|reflexivity].
Qed.

(** ** All weights of the product of rules [qs] with weights close to those of ideal rules [Qs] *)
Definition approximates (eps : R) (q Q : quad) : Prop := Forall2 (close eps) (q_weights q) (q_weights Q).
Lemma tp_quad_weights Qs Q : tp_quad Qs = Ok Q ->
  q_weights Q = map (fun idx => product (pick 0 (map q_weights Qs) idx)) (enumF (map (fun q => length (q_weights q)) Qs)).
Proof.
  unfold tp_quad. destruct (tp_weights Qs) as (ws & Ew & Hw). destruct (tensor_product_pts (map quad_points Qs)) as [x|e]; cbn [bind]; [|discriminate].
  rewrite Ew. cbn [bind]. rewrite Hw. destruct (negb _); [discriminate|]. destruct (match Qs with [] => _ | _ => _ end) as [ex|e]; cbn [bind]; [|discriminate].
  intros E. injection E as <-. reflexivity.
Qed.
Lemma tp_quad64_weights qs q : tp_quad64 qs (Ok q) ->
  Forall2 prod64 (map (fun idx => pick 0 (map q_weights qs) idx) (enumF (map (fun q => length (q_weights q)) qs))) (q_weights q).
Proof.
  unfold tp_quad64. destruct (tp_weight_cols qs) as (ws & Ew & Hw). destruct (tensor_product_pts (map quad_points qs)) as [x|e]; [|discriminate].
  rewrite Ew. intros (w & H2 & E). rewrite <- Hw. destruct (negb _); [discriminate|]. destruct (match qs with [] => _ | _ => _ end) as [ex|e]; cbn [bind] in E; [|discriminate].
  injection E as ->. exact H2.
Qed.
Lemma pick_length (ls : list (list R)) : forall idx, valid_idx idx (map (@length R) ls) -> length (pick 0 ls idx) = length ls.
Proof. intros idx H. unfold pick. rewrite map_length, combine_length. apply EnumFacts.Forall2_length in H. rewrite map_length in H. lia. Qed.
Lemma pick_in (ls : list (list R)) : forall idx, valid_idx idx (map (@length R) ls) -> forall w, In w (pick 0 ls idx) -> exists l, In l ls /\ In w l.
Proof.
  induction ls as [|l ls IH]; intros idx H w Hw; inversion H as [|i n r ns Hi Hr]; subst; [easy|]. unfold pick in *. cbn [combine map fst snd] in Hw. destruct Hw as [<-|Hw].
  - exists l. split; [now left|now apply nth_In].
  - destruct (IH r Hr w Hw) as (m & A & B). exists m. split; [now right|easy].
Qed.
Lemma pick_close eps qs Qs : Forall2 (approximates eps) qs Qs -> forall idx, valid_idx idx (map (fun q => length (q_weights q)) qs) ->
  Forall2 (close eps) (pick 0 (map q_weights qs) idx) (pick 0 (map q_weights Qs) idx).
Proof.
  induction 1 as [|q Q qs Qs H HF IH]; intros idx HI; inversion HI as [|i n r ns Hi Hr]; subst; [constructor|]. unfold pick in *. cbn [combine map fst snd]. constructor; [|now apply IH].
  clear -H Hi. unfold approximates in H. revert i Hi. induction H as [|a b l m Hab HF IH]; intros [|i] Hi; cbn [nth length] in *; [lia|lia|easy|apply IH; lia].
Qed.
Theorem C79_weights eps k qs Qs q Q : 0 <= eps -> Forall2 (approximates eps) qs Qs ->
  (forall p w, In p qs -> In w (q_weights p) -> fmt w /\ moderate k w) -> (k * length qs <= 1022)%nat ->
  tp_quad64 qs (Ok q) -> tp_quad Qs = Ok Q -> Forall2 (close (growth eps (length Qs))) (q_weights q) (q_weights Q).
Proof.
  intros He HA HM HK H1 H2. apply tp_quad64_weights in H1. rewrite (tp_quad_weights Qs Q H2).
  assert (EL : map (fun q => length (q_weights q)) Qs = map (fun q => length (q_weights q)) qs).
  { clear -HA. induction HA as [|a b l m H HF IH]; [reflexivity|]. cbn [map]. rewrite IH. f_equal. symmetry. exact (EnumFacts.Forall2_length _ _ _ H). }
  assert (LL : length qs = length Qs) by exact (EnumFacts.Forall2_length _ _ _ HA).
  rewrite EL. set (idxs := enumF _) in *. assert (HV : forall idx, In idx idxs -> valid_idx idx (map (fun q => length (q_weights q)) qs)) by (intros idx Hi; now apply enumF_in).
  clearbody idxs. revert H1. generalize (q_weights q) as ws. induction idxs as [|idx idxs IH]; intros ws H1; inversion H1 as [|c w cs ws' Hc Hcs]; subst; [constructor|].
  cbn [map]. constructor; [|apply IH; [intros i Hi; apply HV; now right|easy]].
  assert (V : valid_idx idx (map (fun q => length (q_weights q)) qs)) by (apply HV; now left).
  assert (V' : valid_idx idx (map (@length R) (map q_weights qs))) by (now rewrite map_map).
  assert (VQ : valid_idx idx (map (@length R) (map q_weights Qs))) by (now rewrite map_map, EL).
  assert (G : forall v, In v (pick 0 (map q_weights qs) idx) -> fmt v /\ moderate k v).
  { intros v Hv. destruct (pick_in _ _ V' v Hv) as (l & A & B). apply in_map_iff in A. destruct A as (p & <- & Hp). exact (HM p v Hp B). }
  assert (LP : length (pick 0 (map q_weights Qs) idx) = length Qs) by (rewrite pick_length by easy; apply map_length).
  rewrite <- LP. apply (C79_product eps k (pick 0 (map q_weights qs) idx)); try easy.
  - apply Forall_forall. intros v Hv. now apply G.
  - intros v Hv. now apply G.
  - rewrite pick_length by easy. now rewrite map_length.
  - now apply pick_close.
Qed.

(** ** Applying the rule: the weights and the dot product together. *)
Theorem C79_call eps k qs Qs q Q v r : 0 <= eps -> Forall2 (approximates eps) qs Qs ->
  (forall p w, In p qs -> In w (q_weights p) -> fmt w /\ moderate k w) -> (k * length qs <= 1022)%nat ->
  tp_quad64 qs (Ok q) -> tp_quad Qs = Ok Q -> length v = length (q_weights Q) -> dot64 (combine (q_weights q) v) r ->
  let N := length (q_weights Q) in
  Rabs (r - dotR (q_weights Q) v)
    <= ((1 + growth eps (length Qs)) * (1 + u) ^ N - 1) * abs_dot (q_weights Q) v + INR N * (1 + u) ^ N * eta.
Proof.
  intros He HA HM HK H1 H2 HL HD N. pose proof (C79_weights eps k qs Qs q Q He HA HM HK H1 H2) as HW. set (G := growth eps (length Qs)) in *. pose proof (EnumFacts.Forall2_length _ _ _ HW) as LW.
  pose proof (C77_error (q_weights q) v r ltac:(lia) HD) as E. unfold dot_bound in E. rewrite LW in E. fold N in E.
  assert (HG : 0 <= G).
  { unfold G, growth. assert (0 < u) by (apply Rinv_0_lt_compat, pow_lt; lra). assert (1 <= (1 + eps) ^ length Qs) by (apply pow_R1_Rle; lra). assert (1 <= (1 + u) ^ (length Qs - 1)) by (apply pow_R1_Rle; lra).
    assert (1 * 1 <= (1 + eps) ^ length Qs * (1 + u) ^ (length Qs - 1)) by (apply Rmult_le_compat; lra). lra. }
  assert (K : Rabs (dotR (q_weights q) v - dotR (q_weights Q) v) <= G * abs_dot (q_weights Q) v /\ abs_dot (q_weights q) v <= (1 + G) * abs_dot (q_weights Q) v).
  { clear -HW HG. revert v. unfold abs_dot, dotR. induction HW as [|a b l m H HF IH]; intros v.
    - cbn. rewrite Rminus_eq_0, Rabs_R0. lra.
    - destruct v as [|y v]; [cbn; rewrite Rminus_eq_0, Rabs_R0; lra|]. cbn [combine map fold_right fst snd]. destruct (IH v) as [A B]. unfold close in H.
      assert (C1 : Rabs (a * y - b * y) <= G * Rabs (b * y)). { replace (a * y - b * y) with ((a - b) * y) by ring. rewrite !Rabs_mult, <- Rmult_assoc. apply Rmult_le_compat_r; [apply Rabs_pos|easy]. }
      split.
      + match goal with |- Rabs (_ + ?s - (_ + ?t)) <= _ => replace (a * y + s - (b * y + t)) with ((a * y - b * y) + (s - t)) by ring end. eapply Rle_trans; [apply Rabs_triang|]. lra.
      + assert (Rabs (a * y) <= Rabs (a * y - b * y) + Rabs (b * y)). { replace (a * y) with ((a * y - b * y) + b * y) at 1 by ring. apply Rabs_triang. } lra. }
  destruct K as [K1 K2]. replace (r - dotR (q_weights Q) v) with ((r - dotR (q_weights q) v) + (dotR (q_weights q) v - dotR (q_weights Q) v)) by ring. eapply Rle_trans; [apply Rabs_triang|].
  assert (0 <= (1 + u) ^ N - 1). { assert (0 < u) by (apply Rinv_0_lt_compat, pow_lt; lra). assert (1 <= (1 + u) ^ N) by (apply pow_R1_Rle; lra). lra. }
  assert (((1 + u) ^ N - 1) * abs_dot (q_weights q) v <= ((1 + u) ^ N - 1) * ((1 + G) * abs_dot (q_weights Q) v)) by (apply Rmult_le_compat_l; easy). lra.
Qed.

(** ** Non-vacuity: the product of the one-point and a three-point rule *)
Example C79_example : let q1 := mkQuad false 1 [[0]] [2] (Some (degree 1)) in let q3 := mkQuad false 1 [[-1]; [0]; [1]] [/ 2; 1; / 2] (Some (degree 1)) in
  Forall2 (approximates 0) [q1; q3] [q1; q3] /\ (forall p w, In p [q1; q3] -> In w (q_weights p) -> fmt w /\ moderate 1 w)
  /\ (1 * length [q1; q3] <= 1022)%nat /\ (exists q, tp_quad64 [q1; q3] (Ok q)) /\ exists Q, tp_quad [q1; q3] = Ok Q /\ length (q_weights Q) = 3%nat.
Proof.
  cbv zeta. set (q1 := mkQuad false 1 [[0]] _ _). set (q3 := mkQuad false 1 [[-1]; _; _] _ _).
  assert (A : forall l, Forall2 (close 0) l l). { induction l; constructor; [unfold close; rewrite Rminus_eq_0, Rabs_R0; lra|easy]. }
  split; [constructor; [apply A|constructor; [apply A|constructor]]|]. split; [|split; [cbn; lia|]].
  - assert (F : forall e, (-1 <= e <= 1)%Z -> fmt (bpow radix2 e) /\ moderate 1 (bpow radix2 e)).
    { intros e He. split; [apply fmt_bpow; lia|]. right. apply ranged_iff. unfold ranged. rewrite Rabs_pos_eq by apply bpow_ge_0. split; apply bpow_le; lia. }
    pose proof (F 1%Z ltac:(lia)) as F2. pose proof (F 0%Z ltac:(lia)) as F1. pose proof (F (-1)%Z ltac:(lia)) as F0.
    change (bpow radix2 1) with 2 in F2. change (bpow radix2 0) with 1 in F1. change (bpow radix2 (-1)) with (/ 2) in F0.
    intros p w [<-|[<-|[]]]; cbn [q_weights q1 q3]; intros Hw; cbn [In] in Hw; intuition (subst; auto).
  - assert (W : Forall wf_quad [q1; q3]) by (repeat constructor). assert (X : exists Q, tp_quad [q1; q3] = Ok Q).
    { apply ProofQuadSpace.tp_quad_defined; [exact W|cbn; lia|]. intros a [<-|[<-|[]]]; exists (degree 1); repeat split; discriminate. }
    destruct X as (Q & E). split.
    + destruct (C79_defined [q1; q3]) as (out & Ho). pose proof (C79_rule _ _ Ho) as R. rewrite E in R. destruct R as (q & -> & _). now exists q.
    + exists Q. split; [exact E|]. rewrite (tp_quad_weights _ _ E). rewrite map_length, enumF_length. reflexivity.
Qed.

Print Assumptions C79_product.
Print Assumptions C79_positive.
Print Assumptions C79_positive_refuted.
Print Assumptions C79_powers_of_two.
Print Assumptions C79_rule.
Print Assumptions C79_defined.
Print Assumptions C79_weights.
Print Assumptions C79_call.
