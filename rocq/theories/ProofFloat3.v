(** * Equispaced nodes in double precision: tolerance strips, and a node outside the simplex *)
From Flocq Require Import Core.
From Coquelicot Require Import Coquelicot.
From Coq Require Import List Arith Bool ZArith Reals Lra Lia.
From Verif Require Import Py PyToolsModel RSum RField ModelLinAlg ProofLinAlg ModelNd ModelShapes ModelSpaces ModelNodes ModelModes ModelBasis ModelQuad
  ModelMatrices EnumFacts SpecIndex SpecGeometry SpecIntegral SpecPoly SpecPartial SpecSpan ProofNodeTuples ProofTPCall ProofTPNodes ProofMonomial ProofBasisDeriv
  ProofPKDO ProofTPOrtho ProofSpaces ProofBasisIndex ProofEquispaced ProofQuad ProofMatrices ProofMatrices2 ProofDiffPerm ProofMatrices3 ProofExchange ProofUnisolvent
  PropsBasis PropsMatrices PropsUnisolvent ProofSpaceNodes ModelFloat ProofFloat ProofFloat2.
Import ListNotations.
Local Open Scope R_scope.

(** Orders up to 10^10. *)
Inductive orders10 : fspace -> Prop :=
| o10_pn d n : INR n <= 10 ^ 10 -> orders10 (PN d n)
| o10_tp c ss : Forall orders10 ss -> orders10 (TPSpace c ss).
Lemma inv1012 : / 10 ^ 12 < / 10 ^ 10 /\ / 10 ^ 10 + 6 * u64 < 2 * / 10 ^ 10.
Proof. pose proof u64_small. assert (/ 10 ^ 15 < / 10 ^ 14) by (apply Rinv_lt_contravar; lra). replace (/ 10 ^ 12) with (100 * / 10 ^ 14) by (field; lra). replace (/ 10 ^ 10) with (10000 * / 10 ^ 14) by (field; lra). split; lra. Qed.
Lemma good64 d n t : (0 < n)%nat -> INR n <= 10 ^ 10 -> length t = d -> (total t <= n)%nat -> good_point (SimplexONB d n) (map (node64 n) t).
Proof.
  intros Hn HO Hl Ht. assert (P : 0 < INR n) by (now apply lt_0_INR). pose proof u64_small as U. pose proof inv1012 as [V1 V2].
  assert (Q : 2 * / 10 ^ 10 <= 2 / INR n). { unfold Rdiv. apply Rmult_le_compat_l; [lra|]. apply Rinv_le_contravar; lra. }
  assert (J : forall k, (k < n)%nat -> INR k / INR n * 2 - 1 <= 1 - 2 / INR n).
  { intros k Hk. apply Rmult_le_reg_r with (INR n); [easy|]. assert (INR k + 1 <= INR n) by (rewrite <- S_INR; apply le_INR; lia). field_simplify; lra. }
  assert (N : forall k, (k < n)%nat -> node64 n k - 1 < - / 10 ^ 10).
  { intros k Hk. pose proof (node64_err n Hn k ltac:(lia)) as E. apply Rabs_le_between in E. specialize (J k Hk). lra. }
  destruct d as [|[|[|[|d]]]]; try exact I.
  - destruct t as [|i [|j [|? ?]]]; try discriminate. unfold total in Ht. cbn [fold_right] in Ht. cbn [good_point map nth]. unfold good2.
    destruct (Nat.eq_dec i 0) as [->|Hi]; [right; now apply node64_0|left]. specialize (N j ltac:(lia)). rewrite Rabs_left; lra.
  - destruct t as [|i [|j [|k [|? ?]]]]; try discriminate. unfold total in Ht. cbn [fold_right] in Ht. cbn [good_point map nth]. unfold good3. split.
    + destruct (Nat.eq_dec i 0) as [->|Hi]; [right; now apply node64_0|left]. specialize (J (j + k)%nat ltac:(lia)). rewrite plus_INR in J.
      pose proof (node64_err n Hn j ltac:(lia)) as E1. apply Rabs_le_between in E1. pose proof (node64_err n Hn k ltac:(lia)) as E2. apply Rabs_le_between in E2.
      assert ((INR j + INR k) / INR n = INR j / INR n + INR k / INR n) by (field; lra). rewrite Rabs_left; lra.
    + destruct (Nat.eq_dec j 0) as [->|Hj]; [right; now apply node64_0|left]. specialize (N k ltac:(lia)). rewrite Rabs_left; lra.
Qed.
Lemma pn64_nodes_of d n p : INR n <= 10 ^ 10 -> equispaced_nodes_for_space64 (PN d n) (Simplex d) = Ok p -> nodes_of (PN d n) (pts_cols p).
Proof.
  intros HO E. assert (HN : (Z.of_nat n <= 2 ^ 51)%Z).
  { apply le_IZR. rewrite <- INR_IZR_INZ. eapply Rle_trans; [exact HO|]. change (IZR (2 ^ 51)) with 2251799813685248. lra. }
  destruct (pn64 d n HN) as (p' & q & E1 & _ & _ & (N & _ & _ & CL & _)). assert (p' = p) by congruence. subst p'. destruct N as (L & LD & U). constructor; [exact L| |].
  - intros x Hx. split; [now apply LD|]. cbn [equispaced_nodes_for_space64 node_tuples_for_space bind] in E. rewrite Nat.eqb_refl in E. cbn [negb] in E.
    destruct (Nat.eqb_spec n 0) as [->|Hn].
    + assert (EP : pts_cols p = map (map rnd64) (pts_cols (mean_column (unit_vertices_for_simplex d)))) by (injection E as <-; reflexivity). rewrite EP in Hx. rewrite mean_simplex in Hx. destruct Hx as [<-|[]].
      pose proof u64_small. pose proof inv1012 as [V1 V2]. assert (T1 : / 10 ^ 10 < / 10) by (apply Rinv_lt_contravar; lra). assert (T2 : / 10 ^ 15 < / 10) by (apply Rinv_lt_contravar; lra).
      destruct d as [|[|[|[|d]]]]; try exact I; cbn [good_point repeat nth map].
      * left. assert (A : Rabs (2 / (INR 2 + 1) - 1) <= 1) by (apply mean_coord; lia). apply rnd_err in A. apply Rabs_le_between in A. cbn [INR] in A. cbn [INR]. rewrite Rabs_left; lra.
      * assert (A : Rabs (2 / (INR 3 + 1) - 1) <= 1) by (apply mean_coord; lia). apply rnd_err in A. apply Rabs_le_between in A. cbn [INR] in A. cbn [INR]. split; left; rewrite Rabs_left; lra.
    + assert (EP : pts_cols p = map (map (node64 n)) (gnitsam n d)) by (injection E as <-; reflexivity). rewrite EP in Hx. apply in_map_iff in Hx. destruct Hx as (t & <- & Ht). apply gnitsam_in in Ht. destruct Ht as [A B].
      apply good64; auto. lia.
  - intros f Hf Hz. apply U; [|easy]. now apply in_space_pn.
Qed.
Lemma equi64_nodes_of s : forall sh, fits s sh -> orders10 s -> exists p, equispaced_nodes_for_space64 s sh = Ok p /\ nodes_of s (pts_cols p) /\ wf_pts p /\ NoDup (pts_cols p).
Proof.
  induction s as [d n|c ss IH] using fspace_ind'; intros sh HF HO; inversion HF as [|? ? ? shs HFs]; subst; inversion HO as [? ? HN|? ? HOs]; subst.
  - assert (HN' : (Z.of_nat n <= 2 ^ 51)%Z).
    { apply le_IZR. rewrite <- INR_IZR_INZ. eapply Rle_trans; [exact HN|]. change (IZR (2 ^ 51)) with 2251799813685248. lra. }
    destruct (pn64 d n HN') as (p & q & E1 & _ & _ & (_ & W & ND & _)). exists p. split; [easy|]. split; [now apply pn64_nodes_of|easy].
  - pose proof (fits_dim _ _ HF) as Hd.
    assert (exists ps, zipM (fun b s => equispaced_nodes_for_space64 b s) ss shs = Ok ps
       /\ Forall2 (fun s p => nodes_of s (pts_cols p) /\ wf_pts p /\ NoDup (pts_cols p)) ss ps) as (ps & Ez & HPP).
    { clear HF HO Hd. induction HFs as [|s sh ss shs H1 HFs IHF]; [exists []; split; [reflexivity|constructor]|].
      inversion IH as [|? ? I1 I2]; subst. inversion HOs as [|? ? O1 O2]; subst.
      destruct (IHF I2 O2) as (ps & Ez & HPP). destruct (I1 sh H1 O1) as (p & Ep & HN & W & N).
      exists (p :: ps). split; [|constructor; auto]. cbn [zipM]. rewrite Ep. cbn [bind]. rewrite Ez. reflexivity. }
    destruct (tensor_nodes c ss ps HPP) as (p & E & HN).
    assert (HW : Forall wf_pts ps /\ Forall (fun p => NoDup (pts_cols p)) ps /\ Forall (fun p => (0 < length (pts_cols p))%nat) ps).
    { clear -HPP. induction HPP as [|s p ss ps (H1 & H2 & H3) HF (A & B & C)]; [repeat split; constructor|]. repeat split; try (constructor; auto).
      destruct (nodes_of_dim _ _ H1) as [L _]. pose proof (space_dim_pos s). unfold lt in *. rewrite L. easy. }
    destruct HW as (A & B & C). destruct (tensor_product_pts_cols ps A B C) as (p' & E' & _ & Ec & Wp). assert (p' = p) by congruence. subst p'.
    exists p. split; [|split; [easy|split; [easy|]]].
    + cbn [equispaced_nodes_for_space64]. rewrite Hd. cbn [shape_dim]. rewrite Nat.eqb_refl. cbn [negb]. rewrite Ez. exact E.
    + rewrite Ec. apply (tp_tuples_NoDup _ (map pts_dim ps)); [now apply Forall_map|]. clear -A. induction A; cbn [map]; constructor; auto.
Qed.

(** ** A node of the triangle outside the triangle *)
Lemma rnd_val x m e : (-1074 <= e)%Z -> bpow radix2 (e + 52) <= Rabs x < bpow radix2 (e + 53) -> Rabs (x * bpow radix2 (- e) - IZR m) < / 2 -> rnd64 x = IZR m * bpow radix2 e.
Proof.
  intros He Hx Hm. assert (M : (mag radix2 x = e + 53 :> Z)%Z).
  { apply mag_unique. replace (e + 53 - 1)%Z with (e + 52)%Z by lia. exact Hx. }
  assert (CE : cexp radix2 (FLT_exp (-1074) 53) x = e) by (unfold cexp; rewrite M; unfold FLT_exp; lia).
  unfold rnd64, round, F2R, scaled_mantissa. rewrite CE. cbn [Fnum Fexp]. f_equal. apply f_equal. now apply Znearest_imp.
Qed.
Lemma node64_5_1 : node64 5 1 = - 5404319552844595 * bpow radix2 (-53).
Proof.
  rewrite (node64_eq 5). rewrite (rnd_val (INR 1 / INR 5) 7205759403792794 (-55)); [|lia| |].
  - rewrite (rnd_val _ (-5404319552844595) (-53)); [reflexivity|lia| |].
    + change (bpow radix2 (-53 + 52)) with (/ 2). change (bpow radix2 (-53 + 53)) with 1. change (bpow radix2 (-55)) with (/ 36028797018963968). rewrite Rabs_left; lra.
    + change (bpow radix2 (- -53)) with 9007199254740992. change (bpow radix2 (-55)) with (/ 36028797018963968). match goal with |- Rabs ?t < _ => replace t with 0 by lra end. rewrite Rabs_R0. lra.
  - change (bpow radix2 (-55 + 52)) with (/ 8). change (bpow radix2 (-55 + 53)) with (/ 4). cbn [INR]. rewrite Rabs_right; lra.
  - change (bpow radix2 (- -55)) with 36028797018963968. cbn [INR]. apply Rabs_def1; lra.
Qed.
Lemma node64_5_4 : node64 5 4 = 5404319552844596 * bpow radix2 (-53).
Proof.
  rewrite (node64_eq 5). rewrite (rnd_val (INR 4 / INR 5) 7205759403792794 (-53)); [|lia| |].
  - rewrite (rnd_val _ 5404319552844596 (-53)); [reflexivity|lia| |].
    + change (bpow radix2 (-53 + 52)) with (/ 2). change (bpow radix2 (-53 + 53)) with 1. change (bpow radix2 (-53)) with (/ 9007199254740992). rewrite Rabs_right; lra.
    + change (bpow radix2 (- -53)) with 9007199254740992. change (bpow radix2 (-53)) with (/ 9007199254740992). match goal with |- Rabs ?t < _ => replace t with 0 by lra end. rewrite Rabs_R0. lra.
  - change (bpow radix2 (-53 + 52)) with (/ 2). change (bpow radix2 (-53 + 53)) with 1. cbn [INR]. rewrite Rabs_right; lra.
  - change (bpow radix2 (- -53)) with 9007199254740992. cbn [INR]. apply Rabs_def1; lra.
Qed.

Lemma vertex_entries d v c : In v (pts_cols (unit_vertices_for_simplex d)) -> In c v -> c = -1 \/ c = 1.
Proof.
  intros Hv Hc. cbn [unit_vertices_for_simplex pts_cols] in Hv. apply in_map_iff in Hv. destruct Hv as (j & <- & _). apply in_map_iff in Hc. destruct Hc as (i & <- & _).
  destruct (j =? i + 1)%nat; auto.
Qed.
Lemma pn_dims_mono lo hi lo' hi' s : (lo' <= lo)%nat -> (hi <= hi')%nat -> pn_dims lo hi s -> pn_dims lo' hi' s.
Proof.
  intros A B. induction s as [d n|c ss IH] using fspace_ind'; intros H; inversion H as [|? ? HF]; subst; constructor; [lia|]. clear H. induction HF; inversion IH; subst; constructor; auto.
Qed.
