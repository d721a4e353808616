(** * Warp-and-blend nodes: edges, faces and symmetry *)
From Coq Require Import List Arith Bool ZArith Reals Lra Lia.
From Verif Require Import Py RSum PyToolsModel ModelNd ModelShapes ModelSpaces ModelNodes ModelModes ModelBasis ModelQuad ModelGauss ModelMatrices ModelTools ModelWarpBlend.
From Verif Require Import SpecGeometry ProofQuad ProofPoly1 ProofGauss3 ProofWarpBlend ProofWarpBlend2 PropsGauss PropsLobatto PropsTools.
From Verif Require ModelFaces ModelGM ProofEquispaced.
Import ListNotations.
Local Open Scope R_scope.

(** What is used of the scaled warp: odd, and the right displacement at the points of an edge. *)
Definition edge_warp (n : nat) (xs : list R) (F : R -> R) : Prop :=
  forall k, (k <= n)%nat -> 2 * (INR k / INR n) * (INR (n - k) / INR n) * F (INR k / INR n - INR (n - k) / INR n) = (nth k xs 0 + 1) / 2 - INR k / INR n.

Lemma warp_edge n xs g : (1 <= n)%nat -> INR n < 2 * 10 ^ 10 -> sym_points n xs -> (forall k, (k <= n)%nat -> g (equi n k) = nth k xs 0 - equi n k) ->
  edge_warp n xs (fun x => scale_warp x (g x)).
Proof.
  intros Hn Hb (_ & X0 & Xn & _ & _) HV k Hk. assert (P : 0 < INR n) by (apply lt_0_INR; lia).
  assert (EX : INR k / INR n - INR (n - k) / INR n = equi n k) by (unfold equi; rewrite minus_INR by easy; field; lra).
  cbv beta. rewrite EX. destruct (Nat.eq_dec k 0) as [->|K0].
  { rewrite X0. change (INR 0) with 0. unfold Rdiv. ring. }
  destruct (Nat.eq_dec k n) as [->|Kn].
  { rewrite Xn, Nat.sub_diag. change (INR 0) with 0. field. lra. }
  assert (P1 : 1 <= INR k) by (replace 1 with (INR 1) by reflexivity; apply le_INR; lia).
  assert (P2 : INR k <= INR n - 1). { replace (INR n - 1) with (INR (n - 1)) by (rewrite minus_INR by lia; reflexivity). apply le_INR. lia. }
  assert (I : / 10 ^ 10 < 2 / INR n).
  { apply Rmult_lt_reg_r with (INR n); [lra|]. apply Rmult_lt_reg_l with (10 ^ 10); [apply pow_lt; lra|].
    replace (10 ^ 10 * (/ 10 ^ 10 * INR n)) with (INR n) by (field; apply pow_nonzero; lra). replace (10 ^ 10 * (2 / INR n * INR n)) with (2 * 10 ^ 10) by (field; lra). easy. }
  set (s := 2 / INR n) in *. assert (Ps : s * INR n = 2) by (unfold s; field; lra).
  assert (L1 : s <= INR k * s) by nra. assert (L2 : INR k * s <= 2 - s) by nra.
  assert (AB : Rabs (equi n k) < 1 - / 10 ^ 10). { unfold equi. fold s. apply Rabs_def1; lra. }
  unfold scale_warp. unfold Rlt_bool. destruct (Rlt_dec (Rabs (equi n k)) (1 - / 10 ^ 10)) as [_|N]; [|easy].
  rewrite HV by easy.
  assert (Q : 1 - (1 * equi n k) ^ 2 = INR k * s * (2 - INR k * s)) by (unfold equi; fold s; ring).
  rewrite Q. rewrite minus_INR by easy.
  assert (E1 : INR k / INR n = INR k * s / 2) by (unfold s; field; lra). assert (E2 : (INR n - INR k) / INR n = 1 - INR k * s / 2) by (unfold s; field; lra).
  rewrite E1, E2. unfold equi. fold s. field. split; nra.
Qed.

(** ** Barycentric coordinates as tuples summing to n *)
Definition full (n : nat) (t : list nat) : list nat := (n - sum_nat t)%nat :: t.
Definition scaled (n : nat) (c : list nat) : list R := map (fun k => INR k / INR n) c.
Lemma tuple_bary_full n t : (1 <= n)%nat -> (sum_nat t <= n)%nat -> tuple_bary n t = scaled n (full n t).
Proof.
  intros Hn Hs. assert (P : 0 < INR n) by (apply lt_0_INR; lia). unfold tuple_bary, unit_to_barycentric, scaled, full. cbv zeta. rewrite map_map. cbn [map].
  assert (E : map (fun x => 1 / 2 * (INR x / INR n * 2 - 1 + 1)) t = map (fun k => INR k / INR n) t) by (apply map_ext; intros; field; lra).
  rewrite E. f_equal. rewrite fold_left_plus. rewrite minus_INR by easy.
  assert (S : list_sum (map (fun k => INR k / INR n) t) = INR (sum_nat t) / INR n).
  { clear. induction t as [|a t IH]; unfold list_sum, sum_nat in *; cbn [map fold_right]; [change (INR 0) with 0; unfold Rdiv; ring|]. rewrite IH, plus_INR. unfold Rdiv. ring. }
  rewrite S. field. lra.
Qed.
Lemma nth_scaled n c i : (i < length c)%nat -> nth i (scaled n c) 0 = INR (nth i c 0%nat) / INR n.
Proof. intros H. unfold scaled. rewrite (nth_indep _ 0 (INR 0 / INR n)) by now rewrite map_length. now rewrite (map_nth (fun k => INR k / INR n)). Qed.

Section Edges.
  Context (n : nat) (xs : list R) (F : R -> R) (al : R).
  Hypothesis Hn : (1 <= n)%nat.
  Hypothesis HX : sym_points n xs.
  Hypothesis HE : edge_warp n xs F.
  Let lg (k : nat) : R := (nth k xs 0 + 1) / 2.
  Let P : 0 < INR n. Proof. apply lt_0_INR. lia. Qed.

  Lemma push_edge a b : (a + b = n)%nat -> push F al (INR a / INR n) (INR b / INR n) 0 = lg a - INR a / INR n.
  Proof. intros H. unfold lg. rewrite <- HE by lia. replace (n - a)%nat with b by lia. unfold push. ring. Qed.
  Lemma push_0l b c : push F al 0 b c = 0. Proof. unfold push. ring. Qed.
  Lemma push_0r a c : push F al a 0 c = 0. Proof. unfold push. ring. Qed.
  Lemma lg0 : lg 0 = 0. Proof. destruct HX as (_ & X0 & _). unfold lg. rewrite X0. field. Qed.
  Lemma z0 : INR 0 / INR n = 0. Proof. change (INR 0) with 0. unfold Rdiv. ring. Qed.

  (** Two dimensions: on an edge all three coordinates are those of the 1D points. *)
  Lemma edge2 c0 c1 c2 : (c0 + c1 + c2 = n)%nat -> (c0 = 0 \/ c1 = 0 \/ c2 = 0)%nat ->
    disp2 F al (scaled n [c0; c1; c2]) = [lg c0 - INR c0 / INR n; lg c1 - INR c1 / INR n; lg c2 - INR c2 / INR n].
  Proof.
    intros S Z. unfold scaled, disp2. cbn [map nth].
    destruct Z as [-> | [-> | ->]]; rewrite !z0, !push_0l, !push_0r, ?lg0, ?push_edge by lia; (repeat (apply cons_eq; [ring|])); reflexivity.
  Qed.

  (** Three dimensions *)
  Hypothesis Hb : INR n <= 10 ^ 8.
  Lemma tol_pos : 0 < wb_tol. Proof. apply Rinv_0_lt_compat, pow_lt. lra. Qed.
  Lemma tol_le k : (1 <= k)%nat -> wb_tol <= INR k / INR n.
  Proof.
    intros Hk. assert (1 <= INR k) by (replace 1 with (INR 1) by reflexivity; apply le_INR; lia). pose proof P.
    apply Rle_trans with (1 / INR n).
    - unfold wb_tol. replace (1 / INR n) with (/ INR n) by (unfold Rdiv; ring). apply Rinv_le_contravar; lra.
    - apply Rmult_le_compat_r; [left; apply Rinv_0_lt_compat; lra|easy].
  Qed.
  Lemma tol_third x y z : x + y + z = 1 -> wb_tol < x \/ wb_tol < y \/ wb_tol < z.
  Proof.
    intros S. assert (T : wb_tol < / 3) by (apply Rinv_lt_contravar; cbn [pow]; lra).
    destruct (Rlt_dec wb_tol x); [tauto|]. destruct (Rlt_dec wb_tol y); [tauto|]. right. right. lra.
  Qed.
  Lemma Rlt_bool_iff x y : Rlt_bool x y = true <-> x < y.
  Proof. unfold Rlt_bool. destruct (Rlt_dec x y); split; easy. Qed.
  Lemma is_face_zero l2 l3 l4 : l2 + l3 + l4 = 1 -> is_face 0 l2 l3 l4 = true.
  Proof.
    intros S. unfold is_face, Rgt_bool. apply andb_true_intro. split; [apply Rlt_bool_iff, tol_pos|].
    destruct (tol_third _ _ _ S) as [H|[H|H]]; apply Rlt_bool_iff in H; rewrite H, ?orb_true_r; reflexivity.
  Qed.
  Lemma is_face_pos k l2 l3 l4 : (1 <= k)%nat -> is_face (INR k / INR n) l2 l3 l4 = false.
  Proof.
    intros Hk. unfold is_face. unfold Rlt_bool at 1. destruct (Rlt_dec (INR k / INR n) wb_tol) as [H|H]; [|reflexivity]. pose proof (tol_le k Hk). lra.
  Qed.
  Lemma blend3_zero l1 l2 l3 l4 : l2 = 0 \/ l3 = 0 \/ l4 = 0 -> blend3 al l1 l2 l3 l4 = 0.
  Proof. intros H. unfold blend3. cbv zeta. assert (Z : l2 * l3 * l4 = 0) by (destruct H as [-> | [-> | ->]]; ring). rewrite Z. destruct (Rgt_bool _ _); unfold Rdiv; ring. Qed.

  Lemma vadd_scale0 s v : length s = length v -> ModelFaces.vadd s (vscale 0 v) = s.
  Proof.
    revert v. unfold ModelFaces.vadd, ModelFaces.map2, vscale. induction s as [|a s IH]; intros [|b v] L; try discriminate; [reflexivity|].
    cbn [map combine]. injection L as L. rewrite IH by easy. apply cons_eq; [ring|reflexivity].
  Qed.
  Definition edge_vec (c : list nat) : list R := map (fun k => lg k - INR k / INR n) c.

  Section Tet.
    Context (c0 c1 c2 c3 : nat).
    Hypothesis S : (c0 + c1 + c2 + c3 = n)%nat.
    Let c := [c0; c1; c2; c3].
    Let b := scaled n c.
    Lemma frac_sum : INR c0 / INR n + INR c1 / INR n + INR c2 / INR n + INR c3 / INR n = 1.
    Proof. pose proof P. assert (E : INR c0 + INR c1 + INR c2 + INR c3 = INR n) by (rewrite <- !plus_INR; f_equal; lia). rewrite <- E in *. field. lra. Qed.
    Lemma face_at_zero i : (i < 4)%nat -> nth i c 0%nat = 0%nat -> face_at i b = true.
    Proof.
      pose proof frac_sum as FS. pose proof z0 as Z0.
      revert i. apply (case4 (fun i => nth i c 0%nat = 0%nat -> face_at i b = true)); unfold c, b, scaled, face_at; cbn [nth map face_of c];
        intros E; rewrite E, Z0 in *; apply is_face_zero; lra.
    Qed.
    Lemma face_at_pos i : (i < 4)%nat -> nth i c 0%nat <> 0%nat -> face_at i b = false.
    Proof.
      revert i. apply (case4 (fun i => nth i c 0%nat <> 0%nat -> face_at i b = false)); unfold c, b, scaled, face_at; cbn [nth map face_of c];
        intros E; apply is_face_pos; lia.
    Qed.
    Lemma blend_of_zero i j : (i < 4)%nat -> (j < 4)%nat -> i <> j -> nth j c 0%nat = 0%nat -> blend_of al i b = 0.
    Proof.
      pose proof z0 as Z0. intros Hi. revert i Hi j.
      apply (case4 (fun i => forall j, (j < 4)%nat -> i <> j -> nth j c 0%nat = 0%nat -> blend_of al i b = 0));
        intros j Hj N E; unfold b, scaled, blend_of; cbn [nth map face_of c]; apply blend3_zero;
        destruct j as [|[|[|[|j]]]]; try lia; unfold c in E; cbn [nth] in E; rewrite E, Z0; tauto.
    Qed.
    (** On an edge, the face displacement does not depend on the face. *)
    Lemma fdisp_edge i j : (i < 4)%nat -> (j < 4)%nat -> i <> j -> nth i c 0%nat = 0%nat -> nth j c 0%nat = 0%nat -> fdisp F al i b = edge_vec c.
    Proof.
      pose proof z0 as Z0. pose proof lg0 as L0. intros Hi. revert i Hi j.
      apply (case4 (fun i => forall j, (j < 4)%nat -> i <> j -> nth i c 0%nat = 0%nat -> nth j c 0%nat = 0%nat -> fdisp F al i b = edge_vec c));
        intros j Hj N Ei Ej; unfold fdisp, sub3, embed, edge_vec; cbn [face_of].
      - change (disp2 F al [nth 1 b 0; nth 2 b 0; nth 3 b 0]) with (disp2 F al (scaled n [c1; c2; c3])). unfold c in *. cbn [nth] in Ei.
        rewrite edge2; [|lia|destruct j as [|[|[|[|j]]]]; try lia; cbn [nth] in Ej; lia]. cbn [seq map Nat.eqb nth]. rewrite Ei, L0, Z0. apply cons_eq; [ring|reflexivity].
      - change (disp2 F al [nth 2 b 0; nth 3 b 0; nth 0 b 0]) with (disp2 F al (scaled n [c2; c3; c0])). unfold c in *. cbn [nth] in Ei.
        rewrite edge2; [|lia|destruct j as [|[|[|[|j]]]]; try lia; cbn [nth] in Ej; lia]. cbn [seq map Nat.eqb nth]. rewrite Ei, L0, Z0. apply cons_eq; [reflexivity|]. apply cons_eq; [ring|reflexivity].
      - change (disp2 F al [nth 3 b 0; nth 0 b 0; nth 1 b 0]) with (disp2 F al (scaled n [c3; c0; c1])). unfold c in *. cbn [nth] in Ei.
        rewrite edge2; [|lia|destruct j as [|[|[|[|j]]]]; try lia; cbn [nth] in Ej; lia]. cbn [seq map Nat.eqb nth]. rewrite Ei, L0, Z0. do 2 (apply cons_eq; [reflexivity|]). apply cons_eq; [ring|reflexivity].
      - change (disp2 F al [nth 0 b 0; nth 1 b 0; nth 2 b 0]) with (disp2 F al (scaled n [c0; c1; c2])). unfold c in *. cbn [nth] in Ei.
        rewrite edge2; [|lia|destruct j as [|[|[|[|j]]]]; try lia; cbn [nth] in Ej; lia]. cbn [seq map Nat.eqb nth]. rewrite Ei, L0, Z0. do 3 (apply cons_eq; [reflexivity|]). apply cons_eq; [ring|reflexivity].
    Qed.
    (** On a face, only the displacement of that face counts. *)
    Lemma disp3_face i : (i < 4)%nat -> nth i c 0%nat = 0%nat -> disp3 F al b = fdisp F al i b.
    Proof.
      intros Hi Zi.
      assert (SA : forall j s, (j < 4)%nat -> length s = 4%nat -> (nth j c 0 = 0)%nat -> step3 F al b s j = fdisp F al i b).
      { intros j s Hj Ls Zj. unfold step3. rewrite face_at_zero by easy. destruct (Nat.eq_dec j i) as [->|N]; [reflexivity|].
        rewrite (fdisp_edge j i), (fdisp_edge i j) by auto. reflexivity. }
      assert (SB : forall j s, (j < 4)%nat -> length s = 4%nat -> (nth j c 0 <> 0)%nat -> step3 F al b s j = s).
      { intros j s Hj Ls Zj. unfold step3. rewrite face_at_pos by easy. assert (N : j <> i) by (intros ->; lia).
        rewrite (blend_of_zero j i) by auto. apply vadd_scale0. unfold fdisp. now rewrite embed_len. }
      assert (LF : length (fdisp F al i b) = 4%nat) by apply embed_len.
      assert (K : forall m, (i < m <= 4)%nat -> fold_left (step3 F al b) (seq 0 m) [0; 0; 0; 0] = fdisp F al i b).
      { assert (LL : forall m, length (fold_left (step3 F al b) (seq 0 m) [0; 0; 0; 0]) = 4%nat).
        { induction m as [|m IH]; [reflexivity|]. rewrite seq_S, fold_left_app. cbn [fold_left]. now apply step3_len. }
        induction m as [|m IH]; intros Hm; [lia|]. rewrite seq_S, fold_left_app. cbn [fold_left Nat.add].
        destruct (Nat.eq_dec (nth m c 0%nat) 0) as [Z|Z]; [apply SA; [lia|apply LL|easy]|].
        rewrite SB by (lia || apply LL || easy). apply IH. destruct (Nat.eq_dec i m) as [->|]; [easy|lia]. }
      apply K. lia.
    Qed.
    Lemma disp3_edge i j : (i < 4)%nat -> (j < 4)%nat -> i <> j -> nth i c 0%nat = 0%nat -> nth j c 0%nat = 0%nat -> disp3 F al b = edge_vec c.
    Proof. intros Hi Hj N Zi Zj. rewrite (disp3_face i) by easy. now apply (fdisp_edge i j). Qed.
    (** Inside, the blended face displacements are added. *)
    Lemma disp3_inside : (forall i, (i < 4)%nat -> nth i c 0%nat <> 0%nat) ->
      forall j, (j < 4)%nat -> nth j (disp3 F al b) 0 = rsum (fun i => blend_of al i b * nth j (fdisp F al i b) 0) 4.
    Proof.
      intros HZ j Hj.
      assert (SB : forall i s, (i < 4)%nat -> step3 F al b s i = ModelFaces.vadd s (vscale (blend_of al i b) (fdisp F al i b))).
      { intros i s Hi. unfold step3. now rewrite face_at_pos by auto. }
      assert (LL : forall m, length (fold_left (step3 F al b) (seq 0 m) [0; 0; 0; 0]) = 4%nat).
      { induction m as [|m IH]; [reflexivity|]. rewrite seq_S, fold_left_app. cbn [fold_left]. now apply step3_len. }
      assert (K : forall m, (m <= 4)%nat -> nth j (fold_left (step3 F al b) (seq 0 m) [0; 0; 0; 0]) 0 = rsum (fun i => blend_of al i b * nth j (fdisp F al i b) 0) m).
      { induction m as [|m IH]; intros Hm; [cbn [seq fold_left rsum]; destruct j as [|[|[|[|j]]]]; try lia; reflexivity|].
        rewrite seq_S, fold_left_app. cbn [fold_left Nat.add rsum]. rewrite SB by lia.
        assert (LD : length (vscale (blend_of al m b) (fdisp F al m b)) = 4%nat) by (unfold vscale; rewrite map_length; unfold fdisp; apply embed_len).
        unfold ModelFaces.vadd. rewrite ProofFaces.map2_nth by (rewrite LL; lia). rewrite IH by lia. f_equal. unfold vscale.
        rewrite (nth_indep _ 0 (blend_of al m b * 0)) by (unfold vscale in LD; lia). now rewrite (map_nth (fun t => blend_of al m b * t)). }
      now apply K.
    Qed.
  End Tet.
End Edges.

(** ** Symmetry *)
Section Sym.
  Context (F : R -> R) (al : R).
  Lemma disp2_nth b i j k : (i < 3)%nat -> (j < 3)%nat -> (k < 3)%nat -> i <> j -> j <> k -> i <> k ->
    nth i (disp2 F al b) 0 = push F al (nth i b 0) (nth j b 0) (nth k b 0) + push F al (nth i b 0) (nth k b 0) (nth j b 0).
  Proof.
    intros Hi Hj Hk N1 N2 N3. destruct i as [|[|[|i]]]; try lia; destruct j as [|[|[|j]]]; try lia; destruct k as [|[|[|k]]]; try lia; cbn [disp2 nth]; ring.
  Qed.
  Lemma fdisp_nth b i j k l : (i < 4)%nat -> (j < 4)%nat -> (k < 4)%nat -> (l < 4)%nat ->
    i <> j -> i <> k -> i <> l -> j <> k -> j <> l -> k <> l ->
    nth j (fdisp F al i b) 0 = push F al (nth j b 0) (nth k b 0) (nth l b 0) + push F al (nth j b 0) (nth l b 0) (nth k b 0).
  Proof.
    intros Hi Hj Hk Hl N1 N2 N3 N4 N5 N6.
    destruct i as [|[|[|[|i]]]]; try lia; destruct j as [|[|[|[|j]]]]; try lia; destruct k as [|[|[|[|k]]]]; try lia; destruct l as [|[|[|[|l]]]]; try lia;
      unfold fdisp, embed, sub3; cbn [face_of seq map Nat.eqb nth disp2]; ring.
  Qed.
  Lemma fdisp_diag b i : (i < 4)%nat -> nth i (fdisp F al i b) 0 = 0.
  Proof. revert i. apply case4; reflexivity. Qed.
  Lemma blend3_sym l1 l2 l3 l4 : blend3 al l1 l2 l3 l4 = blend3 al l1 l3 l2 l4 /\ blend3 al l1 l2 l3 l4 = blend3 al l1 l2 l4 l3.
  Proof.
    unfold blend3. cbv zeta. split.
    - replace (l3 * l2 * l4) with (l2 * l3 * l4) by ring.
      replace ((l3 + 1 / 2 * l1) * (l2 + 1 / 2 * l1) * (l4 + 1 / 2 * l1)) with ((l2 + 1 / 2 * l1) * (l3 + 1 / 2 * l1) * (l4 + 1 / 2 * l1)) by ring. reflexivity.
    - replace (l2 * l4 * l3) with (l2 * l3 * l4) by ring.
      replace ((l2 + 1 / 2 * l1) * (l4 + 1 / 2 * l1) * (l3 + 1 / 2 * l1)) with ((l2 + 1 / 2 * l1) * (l3 + 1 / 2 * l1) * (l4 + 1 / 2 * l1)) by ring. reflexivity.
  Qed.
  Lemma blend_of_any b i j k l : (i < 4)%nat -> (j < 4)%nat -> (k < 4)%nat -> (l < 4)%nat ->
    i <> j -> i <> k -> i <> l -> j <> k -> j <> l -> k <> l ->
    blend_of al i b = blend3 al (nth i b 0) (nth j b 0) (nth k b 0) (nth l b 0).
  Proof.
    intros Hi Hj Hk Hl N1 N2 N3 N4 N5 N6.
    assert (S1 := fun a b c d => proj1 (blend3_sym a b c d)). assert (S2 := fun a b c d => proj2 (blend3_sym a b c d)).
    destruct i as [|[|[|[|i]]]]; try lia; destruct j as [|[|[|[|j]]]]; try lia; destruct k as [|[|[|[|k]]]]; try lia; destruct l as [|[|[|[|l]]]]; try lia;
      unfold blend_of; cbn [face_of]; first [reflexivity|now rewrite S1|now rewrite S2|now rewrite S1, S2|now rewrite S2, S1|now rewrite S1, S2, S1].
  Qed.
End Sym.

(** A permutation of 0 .. m-1, as a function *)
Definition perm_on (m : nat) (p : nat -> nat) : Prop :=
  (forall i, (i < m)%nat -> (p i < m)%nat) /\ (forall i j, (i < m)%nat -> (j < m)%nat -> p i = p j -> i = j).
Lemma rsum_perm4 p f : perm_on 4 p -> rsum (fun i => f (p i)) 4 = rsum f 4.
Proof.
  intros [H1 H2]. pose proof (H1 0 ltac:(lia))%nat. pose proof (H1 1 ltac:(lia))%nat. pose proof (H1 2 ltac:(lia))%nat. pose proof (H1 3 ltac:(lia))%nat.
  assert (p 0 <> p 1 /\ p 0 <> p 2 /\ p 0 <> p 3 /\ p 1 <> p 2 /\ p 1 <> p 3 /\ p 2 <> p 3)%nat as (N1 & N2 & N3 & N4 & N5 & N6).
  { repeat split; intros E; apply H2 in E; lia. }
  cbn [rsum]. clear H1 H2. generalize dependent (p 0%nat). generalize dependent (p 1%nat). generalize dependent (p 2%nat). generalize dependent (p 3%nat).
  intros a Ha b Hb N6 c Hc N5 N4 d Hd N1 N2 N3.
  destruct a as [|[|[|[|a]]]]; try lia; destruct b as [|[|[|[|b]]]]; try lia; destruct c as [|[|[|[|c]]]]; try lia; destruct d as [|[|[|[|d]]]]; try lia; ring.
Qed.
Lemma others4 i j : (i < 4)%nat -> (j < 4)%nat -> i <> j -> exists k l, (k < 4 /\ l < 4 /\ i <> k /\ i <> l /\ j <> k /\ j <> l /\ k <> l)%nat.
Proof.
  intros Hi Hj N. destruct i as [|[|[|[|i]]]]; try lia; destruct j as [|[|[|[|j]]]]; try lia;
    first [exists 0%nat, 1%nat; lia|exists 0%nat, 2%nat; lia|exists 0%nat, 3%nat; lia|exists 1%nat, 2%nat; lia|exists 1%nat, 3%nat; lia|exists 2%nat, 3%nat; lia].
Qed.
Lemma others3 i : (i < 3)%nat -> exists j k, (j < 3 /\ k < 3 /\ i <> j /\ i <> k /\ j <> k)%nat.
Proof. intros Hi. destruct i as [|[|[|i]]]; try lia; first [exists 1%nat, 2%nat; lia|exists 0%nat, 2%nat; lia|exists 0%nat, 1%nat; lia]. Qed.
Definition permuted {A} (d : A) (m : nat) (p : nat -> nat) (c : list A) : list A := map (fun i => nth (p i) c d) (seq 0 m).
Lemma permuted_nth {A} (d : A) m p c i : (i < m)%nat -> nth i (permuted d m p c) d = nth (p i) c d.
Proof.
  intros H. unfold permuted. rewrite (nth_indep _ d (nth (p 0%nat) c d)) by (rewrite map_length, seq_length; easy).
  rewrite (map_nth (fun i => nth (p i) c d)), seq_nth by easy. reflexivity.
Qed.
Lemma permuted_len {A} (d : A) m p c : length (permuted d m p c) = m.
Proof. unfold permuted. now rewrite map_length, seq_length. Qed.
Lemma scaled_permuted n m p c : perm_on m p -> length c = m -> scaled n (permuted 0%nat m p c) = permuted 0 m p (scaled n c).
Proof.
  intros [H1 _] L. apply list_eq_nth; [unfold scaled; rewrite map_length, !permuted_len; reflexivity|].
  intros i Hi. unfold scaled in Hi. rewrite map_length, permuted_len in Hi. rewrite nth_scaled by now rewrite permuted_len.
  rewrite !permuted_nth by easy. rewrite nth_scaled by (rewrite L; auto). reflexivity.
Qed.

Section Sym2.
  Context (n : nat) (F : R -> R) (al : R).
  Lemma disp2_perm p b : perm_on 3 p -> disp2 F al (permuted 0 3 p b) = permuted 0 3 p (disp2 F al b).
  Proof.
    intros [H1 H2]. apply list_eq_nth; [now rewrite permuted_len|]. change (length (disp2 F al (permuted 0 3 p b))) with 3%nat. intros i Hi.
    destruct (others3 i Hi) as (j & k & Hj & Hk & N1 & N2 & N3). rewrite permuted_nth by easy.
    rewrite (disp2_nth F al _ i j k), (disp2_nth F al _ (p i) (p j) (p k)) by (auto; intros E; apply H2 in E; auto). rewrite !permuted_nth by easy. reflexivity.
  Qed.
  Lemma move2_perm p b : perm_on 3 p -> length b = 3%nat -> move2 F al (permuted 0 3 p b) = permuted 0 3 p (move2 F al b).
  Proof.
    intros Hp L. apply list_eq_nth; [rewrite permuted_len; apply move2_len; apply permuted_len|].
    rewrite (move2_len F al _ (permuted_len _ _ _ _)). intros i Hi. rewrite move2_nth by (easy || apply permuted_len).
    rewrite disp2_perm by easy. rewrite !permuted_nth by easy. rewrite move2_nth by (easy || now apply Hp). reflexivity.
  Qed.
End Sym2.

Section Sym3.
  Context (n : nat) (xs : list R) (F : R -> R) (al : R).
  Hypothesis Hn : (1 <= n)%nat.
  Hypothesis HX : sym_points n xs.
  Hypothesis HE : edge_warp n xs F.
  Hypothesis Hb : INR n <= 10 ^ 8.

  Lemma fdisp_perm p b i j : perm_on 4 p -> (i < 4)%nat -> (j < 4)%nat ->
    nth j (fdisp F al i (permuted 0 4 p b)) 0 = nth (p j) (fdisp F al (p i) b) 0.
  Proof.
    intros [H1 H2] Hi Hj. destruct (Nat.eq_dec i j) as [->|N]; [rewrite !fdisp_diag by auto; reflexivity|].
    destruct (others4 i j Hi Hj N) as (k & l & Hk & Hl & N1 & N2 & N3 & N4 & N5).
    rewrite (fdisp_nth F al _ i j k l), (fdisp_nth F al _ (p i) (p j) (p k) (p l)) by (auto; intros E; apply H2 in E; auto).
    rewrite !permuted_nth by easy. reflexivity.
  Qed.
  Lemma blend_perm p b i : perm_on 4 p -> (i < 4)%nat -> blend_of al i (permuted 0 4 p b) = blend_of al (p i) b.
  Proof.
    intros [H1 H2] Hi.
    assert (exists j, (j < 4)%nat /\ i <> j) as (j & Hj & N) by (destruct (Nat.eq_dec i 0); [exists 1%nat|exists 0%nat]; lia).
    destruct (others4 i j Hi Hj N) as (k & l & Hk & Hl & N1 & N2 & N3 & N4 & N5).
    rewrite (blend_of_any al _ i j k l), (blend_of_any al _ (p i) (p j) (p k) (p l)) by (auto; intros E; apply H2 in E; auto).
    rewrite !permuted_nth by easy. reflexivity.
  Qed.
  Lemma list4 (c : list nat) : length c = 4%nat -> exists c0 c1 c2 c3, c = [c0; c1; c2; c3].
  Proof. destruct c as [|c0 [|c1 [|c2 [|c3 [|]]]]]; try discriminate. intros _. now exists c0, c1, c2, c3. Qed.
  Lemma sum_perm4 p c : perm_on 4 p -> length c = 4%nat -> sum_nat (permuted 0%nat 4 p c) = sum_nat c.
  Proof.
    intros [H1 H2] L. destruct (list4 c L) as (c0 & c1 & c2 & c3 & ->).
    pose proof (H1 0 ltac:(lia))%nat. pose proof (H1 1 ltac:(lia))%nat. pose proof (H1 2 ltac:(lia))%nat. pose proof (H1 3 ltac:(lia))%nat.
    assert (p 0 <> p 1 /\ p 0 <> p 2 /\ p 0 <> p 3 /\ p 1 <> p 2 /\ p 1 <> p 3 /\ p 2 <> p 3)%nat as (N1 & N2 & N3 & N4 & N5 & N6).
    { repeat split; intros E; apply H2 in E; lia. }
    unfold permuted. cbn [seq map]. clear H1 H2 L. generalize dependent (p 0%nat). generalize dependent (p 1%nat). generalize dependent (p 2%nat). generalize dependent (p 3%nat).
    intros a Ha b Hb' N6 e He N5 N4 d Hd N1 N2 N3. unfold sum_nat.
    destruct a as [|[|[|[|a]]]]; try lia; destruct b as [|[|[|[|b]]]]; try lia; destruct e as [|[|[|[|e]]]]; try lia; destruct d as [|[|[|[|d]]]]; try lia; cbn [nth fold_right]; lia.
  Qed.
  Lemma perm_inv m p : perm_on m p -> forall j, (j < m)%nat -> exists i, (i < m)%nat /\ p i = j.
  Proof.
    intros [H1 H2] j Hj.
    assert (I : incl (seq 0 m) (map p (seq 0 m))).
    { apply (NoDup_length_incl (l := map p (seq 0 m)) (l' := seq 0 m)).
      - apply ProofEquispaced.NoDup_map_inj_in; [|apply seq_NoDup]. intros a b Ha Hb'. apply in_seq in Ha, Hb'. apply H2; lia.
      - rewrite map_length. reflexivity.
      - intros x Hx. apply in_map_iff in Hx. destruct Hx as (y & <- & Hy). apply in_seq in Hy. apply in_seq. specialize (H1 y). lia. }
    specialize (I j). rewrite in_seq, in_map_iff in I. destruct I as (i & E & Hi); [lia|]. apply in_seq in Hi. exists i. split; [lia|easy].
  Qed.
  Lemma disp3_perm p c : perm_on 4 p -> length c = 4%nat -> sum_nat c = n ->
    disp3 F al (permuted 0 4 p (scaled n c)) = permuted 0 4 p (disp3 F al (scaled n c)).
  Proof.
    intros Hp L S. set (c' := permuted 0%nat 4 p c).
    assert (L' : length c' = 4%nat) by apply permuted_len. assert (S' : sum_nat c' = n) by (unfold c'; now rewrite sum_perm4).
    assert (EC : permuted 0 4 p (scaled n c) = scaled n c') by (symmetry; now apply scaled_permuted).
    apply list_eq_nth; [now rewrite disp3_len, permuted_len|]. rewrite disp3_len. intros j Hj. rewrite permuted_nth by easy.
    assert (NP : forall i, (i < 4)%nat -> nth i c' 0%nat = nth (p i) c 0%nat) by (intros; now apply permuted_nth).
    assert (SC : forall e, length e = 4%nat -> sum_nat e = n -> forall i, (i < 4)%nat -> nth i e 0%nat = 0%nat -> disp3 F al (scaled n e) = fdisp F al i (scaled n e)).
    { intros e Le Se i Hi Z. destruct (list4 e Le) as (e0 & e1 & e2 & e3 & ->). apply (disp3_face n xs F al Hn HX HE Hb); [|easy|easy]. unfold sum_nat in Se. cbn [fold_right] in Se. lia. }
    assert (SI : forall e, length e = 4%nat -> sum_nat e = n -> (forall i, (i < 4)%nat -> nth i e 0%nat <> 0%nat) -> forall j, (j < 4)%nat ->
      nth j (disp3 F al (scaled n e)) 0 = rsum (fun i => blend_of al i (scaled n e) * nth j (fdisp F al i (scaled n e)) 0) 4).
    { intros e Le Se HZ j0 Hj0. destruct (list4 e Le) as (e0 & e1 & e2 & e3 & ->). apply (disp3_inside n F al Hn Hb); [|easy|easy]. unfold sum_nat in Se. cbn [fold_right] in Se. lia. }
    destruct (Forall_Exists_dec (fun i => nth i c' 0%nat <> 0%nat) (fun i => match Nat.eq_dec (nth i c' 0%nat) 0 with left e => right (fun h => h e) | right h => left h end) (seq 0 4)) as [FA|EX].
    - rewrite Forall_forall in FA.
      assert (HZ' : forall i, (i < 4)%nat -> nth i c' 0%nat <> 0%nat) by (intros i Hi; apply FA, in_seq; lia).
      assert (HZ : forall i, (i < 4)%nat -> nth i c 0%nat <> 0%nat).
      { intros i Hi. destruct (perm_inv 4 p Hp i Hi) as (i' & Hi' & <-). rewrite <- NP by easy. auto. }
      rewrite EC. rewrite (SI c' L' S' HZ' j Hj), (SI c L S HZ (p j)) by now apply Hp.
      rewrite <- (rsum_perm4 p (fun i => blend_of al i (scaled n c) * nth (p j) (fdisp F al i (scaled n c)) 0) Hp).
      apply rsum_ext. intros i Hi. rewrite <- EC. rewrite blend_perm, fdisp_perm by easy. reflexivity.
    - apply Exists_exists in EX. destruct EX as (i & Hi & Zi). apply in_seq in Hi.
      assert (Z : nth i c' 0%nat = 0%nat) by lia. rewrite EC, (SC c' L' S' i) by (easy || lia).
      rewrite NP in Z by lia. rewrite (SC c L S (p i)) by (easy || (apply Hp; lia)). rewrite <- EC. apply fdisp_perm; [easy|lia|easy].
  Qed.
  Lemma move3_nth b i : length b = 4%nat -> (i < 4)%nat -> nth i (move3 F al b) 0 = nth i b 0 + nth i (disp3 F al b) 0.
  Proof. intros L H. unfold move3, ModelFaces.vadd. apply ProofFaces.map2_nth; rewrite ?L; [now rewrite disp3_len|easy]. Qed.
  Lemma move3_perm p c : perm_on 4 p -> length c = 4%nat -> sum_nat c = n ->
    move3 F al (permuted 0 4 p (scaled n c)) = permuted 0 4 p (move3 F al (scaled n c)).
  Proof.
    intros Hp L S. assert (LS : length (scaled n c) = 4%nat) by (unfold scaled; now rewrite map_length).
    apply list_eq_nth; [rewrite permuted_len; apply move3_len; apply permuted_len|].
    rewrite (move3_len F al _ (permuted_len _ _ _ _)). intros i Hi. rewrite move3_nth by (easy || apply permuted_len).
    rewrite disp3_perm by easy. rewrite !permuted_nth by easy. rewrite move3_nth by (easy || now apply Hp). reflexivity.
  Qed.
End Sym3.
