(** * Warp-and-blend nodes of orders 1 to 4 on the triangle and the tetrahedron are unisolvent *)
From Coquelicot Require Import Rcomplements.
From Coq Require Import List Arith Bool ZArith Reals Lra Lia.
From Verif Require Import Py RSum PyToolsModel ModelNd ModelShapes ModelSpaces ModelNodes ModelModes ModelBasis ModelQuad ModelGauss ModelMatrices ModelTools ModelWarpBlend.
From Verif Require Import SpecGeometry SpecIndex SpecPoly EnumFacts ProofQuad ProofPoly1 ProofPKDO ProofTPOrtho ProofGauss3 ProofWarpBlend ProofWarpBlend2 ProofWarpBlend3 PropsGauss PropsLobatto PropsTools PropsWarpBlend
  ProofUnisolvent ProofDivide ProofEdgeNodes.
From Verif Require ModelFaces ModelGM.
Import ListNotations.
Local Open Scope R_scope.

(** a polynomial of degree 1 vanishing at the corners of a right triangle *)
Lemma affine_zero g m e : is_poly 2 1 g -> 0 < e - m -> g [m; m] = 0 -> g [e; m] = 0 -> g [m; e] = 0 -> forall x, length x = 2%nat -> g x = 0.
Proof.
  intros Hg He G1 G2 G3 x Hx. destruct x as [|u [|v [|]]]; try discriminate. set (d := e - m) in *.
  assert (Hh : is_poly 2 1 (fun x => g [d * nth 0 x 0 + m; d * nth 1 x 0 + m])).
  { apply (is_poly_coords 2 2 1 g [(fun x => d * nth 0 x 0 + m); (fun x => d * nth 1 x 0 + m)]); [reflexivity| |easy]. repeat constructor; aff. }
  assert (Z := fun W => poly_zero INR 2 1 _ ltac:(intros i j _ _ E; now apply INR_eq) Hh W [(u - m) / d; (v - m) / d] eq_refl). cbn [nth] in Z.
  replace (d * ((u - m) / d) + m) with u in Z by (field; lra). replace (d * ((v - m) / d) + m) with v in Z by (field; lra). apply Z.
  intros y Hy. apply in_map_iff in Hy. destruct Hy as (t & <- & Ht). apply gnitsam_in in Ht. destruct Ht as [L T]. destruct t as [|a [|b [|]]]; try discriminate.
  unfold sum_nat in T. cbn [fold_right] in T. cbn [map nth].
  assert ((a = 0 /\ b = 0) \/ (a = 1 /\ b = 0) \/ (a = 0 /\ b = 1))%nat as [[-> ->]|[[-> ->]|[-> ->]]] by lia; cbn [INR]; unfold d.
  - replace ((e - m) * 0 + m) with m by ring. exact G1.
  - replace ((e - m) * 0 + m) with m by ring. replace ((e - m) * 1 + m) with e by ring. exact G2.
  - replace ((e - m) * 0 + m) with m by ring. replace ((e - m) * 1 + m) with e by ring. exact G3.
Qed.

Section Low.
  Context (n : nat) (xs : list R) (F : R -> R) (al : R).
  Hypothesis Hn : (1 <= n <= 4)%nat.
  Hypothesis SX : sym_points n xs.
  Hypothesis EW : edge_warp n xs F.
  Hypothesis FO : forall x, F (- x) = - F x.
  Hypothesis B1 : forall k, (1 <= k)%nat -> (k < n)%nat -> Rabs (nth k xs 0) <= 7 / 10.
  Hypothesis B4 : n = 4%nat -> 0 <= F (1 / 4) <= 1 / 9.
  Hypothesis BA : Rabs al <= 2.
  Let Hn1 : (1 <= n)%nat. Proof. lia. Qed.

  Lemma e_bound : n = 4%nat -> 0 <= shift4 F al <= 1 / 25.
  Proof.
    intros E. specialize (B4 E). unfold shift4. assert (A : 0 <= al ^ 2 <= 4) by (apply Rabs_le_between in BA; split; nra).
    replace ((al / 4) ^ 2) with (al ^ 2 / 16) by field. set (u := F (1 / 4)) in *. set (v := al ^ 2) in *. clearbody u v. split; nra.
  Qed.
  Lemma xs_bound k : (k <= n)%nat -> (k = 0%nat -> nth k xs 0 = -1) /\ ((1 <= k)%nat -> - (7 / 10) <= nth k xs 0) /\ (k = n -> nth k xs 0 = 1) /\ ((k < n)%nat -> nth k xs 0 <= 7 / 10).
  Proof.
    intros Hk. destruct SX as (_ & X0 & Xn & _ & _). split; [intros ->; exact X0|]. split; [|split; [intros ->; exact Xn|]].
    - intros K1. destruct (Nat.eq_dec k n) as [->|N]; [lra|]. specialize (B1 k K1 ltac:(lia)). apply Rabs_le_between in B1. lra.
    - intros K1. destruct (Nat.eq_dec k 0) as [->|N]; [lra|]. specialize (B1 k ltac:(lia) K1). apply Rabs_le_between in B1. lra.
  Qed.
  Definition bounds2 (a b : nat) (x y : R) : Prop :=
    (a = 0%nat -> x = -1) /\ ((1 <= a)%nat -> -1 + 1 / 20 <= x) /\ (b = 0%nat -> y = -1) /\ ((1 <= b)%nat -> -1 + 1 / 20 <= y)
    /\ ((a + b)%nat = n -> x + y = 0) /\ ((a + b < n)%nat -> x + y <= - (1 / 20)).
  Lemma node2_bounds a b : (a + b <= n)%nat -> exists x y, node2 n F al [a; b] = [x; y] /\ bounds2 a b x y.
  Proof.
    intros S. assert (D : (a = 0 \/ b = 0 \/ a + b = n)%nat \/ (1 <= a /\ 1 <= b /\ a + b < n)%nat) by lia. destruct D as [D|D].
    - exists (nth a xs 0), (nth b xs 0). split; [now apply (node2_edge n xs F al Hn1 SX EW)|].
      destruct (xs_bound a ltac:(lia)) as (A0 & A1 & An & Al). destruct (xs_bound b ltac:(lia)) as (C0 & C1 & Cn & Cl).
      assert (XS : (a + b)%nat = n -> nth a xs 0 + nth b xs 0 = 0).
      { intros E. destruct SX as (_ & _ & _ & _ & Q). specialize (Q b ltac:(lia)). replace (n - b)%nat with a in Q by lia. lra. }
      unfold bounds2. split; [exact A0|]. split; [intros K; specialize (A1 K); lra|]. split; [exact C0|]. split; [intros K; specialize (C1 K); lra|]. split; [exact XS|].
      intros K. destruct D as [D|[D|D]]; [| |lia]; [specialize (A0 D); specialize (Cl ltac:(lia)); lra|specialize (C0 D); specialize (Al ltac:(lia)); lra].
    - assert (n = 3%nat \/ n = 4%nat) as [E|E] by lia.
      + assert (a = 1%nat) by lia. assert (b = 1%nat) by lia. subst a b. rewrite E. exists (- (1 / 3)), (- (1 / 3)). split; [now apply node2_3|].
        unfold bounds2. rewrite E. repeat split; intros; lra || lia.
      + pose proof (e_bound E) as HE. destruct (node2_4 F al FO) as (N1 & N2 & N3). cbv zeta in N1, N2, N3. rewrite E.
        assert ((a = 1 /\ b = 1) \/ (a = 2 /\ b = 1) \/ (a = 1 /\ b = 2))%nat as [[-> ->]|[[-> ->]|[-> ->]]] by lia; [rewrite N1|rewrite N2|rewrite N3]; eexists; eexists; (split; [reflexivity|]);
          unfold bounds2; rewrite E; (repeat split; intros; lra || lia).
  Qed.
  Lemma tri_unisolvent : poly_unisolvent 2 n (map (node2 n F al) (gnitsam n 2)).
  Proof.
    destruct (Nat.le_gt_cases n 2) as [L|G].
    - rewrite (tri_low n xs F al Hn1 SX EW L). apply lattice_poly_unisolvent. now apply sym_inj.
    - apply (tri_reduce n xs F al Hn1 SX EW); [lia| |].
      + intros t (a & b & -> & Ha & Hb & Hab). destruct (node2_bounds a b ltac:(lia)) as (x & y & -> & (_ & X1 & _ & Y1 & _ & Z1)). cbn [nth].
        specialize (X1 Ha). specialize (Y1 Hb). specialize (Z1 Hab). lra.
      + intros g Hg HZ. assert (n = 3%nat \/ n = 4%nat) as [E|E] by lia.
        * assert (Hg0 : is_poly 2 0 g) by (rewrite E in Hg; exact Hg). destruct (is_poly_const_eq 2 g Hg0) as (c & Hc).
          assert (Z := HZ [1%nat; 1%nat] ltac:(exists 1%nat, 1%nat; repeat split; lia)). rewrite E, (node2_3 F al FO) in Z. rewrite Hc in Z by reflexivity.
          intros x Hx. now rewrite Hc.
        * assert (Hg1 : is_poly 2 1 g) by (rewrite E in Hg; exact Hg). pose proof (e_bound E) as HE.
          destruct (node2_4 F al FO) as (N1 & N2 & N3). cbv zeta in N1, N2, N3.
          assert (Z1 := HZ [1%nat; 1%nat] ltac:(exists 1%nat, 1%nat; repeat split; lia)). assert (Z2 := HZ [2%nat; 1%nat] ltac:(exists 2%nat, 1%nat; repeat split; lia)).
          assert (Z3 := HZ [1%nat; 2%nat] ltac:(exists 1%nat, 2%nat; repeat split; lia)). rewrite E in Z1, Z2, Z3. rewrite N1 in Z1. rewrite N2 in Z2. rewrite N3 in Z3.
          refine (affine_zero g (- (1 / 2) - 2 * shift4 F al) (4 * shift4 F al) Hg1 _ Z1 Z2 Z3). lra.
  Qed.
  Lemma tiny k : (2 <= k)%nat -> 0 < / 10 ^ k < 1 / 20.
  Proof.
    intros Hk. split; [apply Rinv_0_lt_compat, pow_lt; lra|]. apply Rle_lt_trans with (/ 10 ^ 2); [|cbn [pow]; lra]. apply Rinv_le_contravar; [apply pow_lt; lra|].
    apply Rle_pow; [lra|easy].
  Qed.
  Lemma tri_nodes : nodes_of (PN 2 n) (map (node2 n F al) (gnitsam n 2)).
  Proof.
    constructor.
    - rewrite map_length. apply gnitsam_length.
    - intros x Hx. apply in_map_iff in Hx. destruct Hx as (t & <- & Ht). apply gnitsam_in in Ht. destruct Ht as [L S]. split; [now apply node2_len|].
      destruct t as [|a [|b [|]]]; try discriminate. unfold sum_nat in S. cbn [fold_right] in S. destruct (node2_bounds a b ltac:(lia)) as (x & y & -> & (X0 & X1 & Y0 & Y1 & Zn & Zl)).
      cbn [good_point nth]. pose proof (tiny 12 ltac:(lia)) as T. unfold good2.
      assert (D : (a = 0 /\ b = n)%nat \/ y <= 1 - 1 / 20).
      { destruct (Nat.eq_dec a 0) as [->|N]; [destruct (Nat.eq_dec b n); [now left|right; specialize (X0 eq_refl); specialize (Zl ltac:(lia)); lra]|].
        right. specialize (X1 ltac:(lia)). destruct (Nat.eq_dec (a + b) n) as [E|E]; [specialize (Zn E); lra|specialize (Zl ltac:(lia)); lra]. }
      destruct D as [[-> ->]|D]; [right; specialize (X0 eq_refl); specialize (Zn ltac:(lia)); lra|left]. rewrite Rabs_left1 by lra. lra.
    - apply tri_unisolvent.
  Qed.

  (** ** The tetrahedron *)
  Let Hb : INR n <= 10 ^ 8. Proof. assert (X := le_INR n 4 ltac:(lia)). replace (INR 4) with 4 in X by (cbn; ring). cbn [pow]. lra. Qed.
  Definition node3 (t : list nat) : list R := unit_of (move3 F al (tuple_bary n t)).
  Lemma node2_eq a b : (a + b <= n)%nat -> exists x y, node2 n F al [a; b] = [x; y]
    /\ x = 2 * (INR a / INR n + nth 1 (disp2 F al (scaled n [(n - (a + b))%nat; a; b])) 0) - 1
    /\ y = 2 * (INR b / INR n + nth 2 (disp2 F al (scaled n [(n - (a + b))%nat; a; b])) 0) - 1.
  Proof.
    intros S. unfold node2. rewrite tuple_bary_full by (lia || (unfold sum_nat; cbn [fold_right]; lia)). unfold full, sum_nat. cbn [fold_right].
    replace (a + (b + 0))%nat with (a + b)%nat by lia. unfold move2. unfold scaled at 1. cbn [map].
    unfold disp2 at 1. unfold ModelFaces.vadd, ModelFaces.map2. cbn [map combine unit_of tl]. unfold unit_of. cbn [tl map]. eexists. eexists. split; [reflexivity|]. split; reflexivity.
  Qed.
  Lemma z0n : INR 0 / INR n = 0. Proof. change (INR 0) with 0. unfold Rdiv. ring. Qed.
  Lemma face1 b c : (b + c <= n)%nat -> node3 [0%nat; b; c] = -1 :: node2 n F al [b; c].
  Proof.
    intros S. destruct (node2_eq b c S) as (x & y & -> & -> & ->). unfold node3. rewrite tuple_bary_full by (lia || (unfold sum_nat; cbn [fold_right]; lia)). unfold full, sum_nat. cbn [fold_right].
    replace (0 + (b + (c + 0)))%nat with (b + c)%nat by lia. unfold move3. rewrite (disp3_face n xs F al Hn1 SX EW Hb (n - (b + c)) 0 b c ltac:(lia) 1 ltac:(lia) eq_refl).
    unfold fdisp, embed, sub3, scaled, ModelFaces.vadd, ModelFaces.map2, unit_of. cbn [map face_of seq Nat.eqb nth disp2 combine tl]. rewrite ?z0n.
    repeat (apply cons_eq; [ring|]); reflexivity.
  Qed.
  Lemma face2 a c : (a + c <= n)%nat -> exists x y, node2 n F al [a; c] = [x; y] /\ node3 [a; 0%nat; c] = [x; -1; y].
  Proof.
    intros S. destruct (node2_eq a c S) as (x & y & E & -> & ->). eexists. eexists. split; [exact E|]. unfold node3. rewrite tuple_bary_full by (lia || (unfold sum_nat; cbn [fold_right]; lia)). unfold full, sum_nat. cbn [fold_right].
    replace (a + (0 + (c + 0)))%nat with (a + c)%nat by lia. unfold move3. rewrite (disp3_face n xs F al Hn1 SX EW Hb (n - (a + c)) a 0 c ltac:(lia) 2 ltac:(lia) eq_refl).
    unfold fdisp, embed, sub3, scaled, ModelFaces.vadd, ModelFaces.map2, unit_of. cbn [map face_of seq Nat.eqb nth disp2 combine tl]. rewrite ?z0n.
    repeat (apply cons_eq; [ring|]); reflexivity.
  Qed.
  Lemma face3 a b : (a + b <= n)%nat -> exists x y, node2 n F al [a; b] = [x; y] /\ node3 [a; b; 0%nat] = [x; y; -1].
  Proof.
    intros S. destruct (node2_eq a b S) as (x & y & E & -> & ->). eexists. eexists. split; [exact E|]. unfold node3. rewrite tuple_bary_full by (lia || (unfold sum_nat; cbn [fold_right]; lia)). unfold full, sum_nat. cbn [fold_right].
    replace (a + (b + (0 + 0)))%nat with (a + b)%nat by lia. unfold move3. rewrite (disp3_face n xs F al Hn1 SX EW Hb (n - (a + b)) a b 0 ltac:(lia) 3 ltac:(lia) eq_refl).
    unfold fdisp, embed, sub3, scaled, ModelFaces.vadd, ModelFaces.map2, unit_of. cbn [map face_of seq Nat.eqb nth disp2 combine tl]. rewrite ?z0n.
    repeat (apply cons_eq; [ring|]); reflexivity.
  Qed.
  Lemma face0 a b c : (a + b + c = n)%nat -> exists x y, node2 n F al [b; c] = [x; y] /\ node3 [a; b; c] = [-1 - x - y; x; y].
  Proof.
    intros S. destruct (node2_eq b c ltac:(lia)) as (x & y & E & Ex & Ey). exists x, y. split; [exact E|].
    pose proof (disp2_sum F al FO (scaled n [(n - (b + c))%nat; b; c])) as DS. replace (n - (b + c))%nat with a in * by lia.
    assert (P : 0 < INR n) by (apply lt_0_INR; lia).
    assert (SS : INR a / INR n + INR b / INR n + INR c / INR n = 1) by (assert (Q : INR a + INR b + INR c = INR n) by (rewrite <- !plus_INR; f_equal; lia); rewrite <- Q in *; field; lra).
    unfold node3. rewrite tuple_bary_full by (lia || (unfold sum_nat; cbn [fold_right]; lia)). unfold full, sum_nat. cbn [fold_right].
    replace (n - (a + (b + (c + 0))))%nat with 0%nat by lia. unfold move3. rewrite (disp3_face n xs F al Hn1 SX EW Hb 0 a b c ltac:(lia) 0 ltac:(lia) eq_refl).
    assert (EM : embed 0 (disp2 F al (sub3 0 (scaled n [0%nat; a; b; c]))) = [0; nth 0 (disp2 F al (scaled n [a; b; c])) 0; nth 1 (disp2 F al (scaled n [a; b; c])) 0; nth 2 (disp2 F al (scaled n [a; b; c])) 0]) by reflexivity.
    unfold fdisp. rewrite EM. unfold scaled at 1. unfold ModelFaces.vadd, ModelFaces.map2, unit_of. cbn [map combine tl].
    apply cons_eq; [|apply cons_eq; [|apply cons_eq; [|reflexivity]]]; rewrite ?Ex, ?Ey; lra.
  Qed.
  Definition swap (i j k : nat) : nat := if (k =? i)%nat then j else if (k =? j)%nat then i else k.
  Lemma swap_perm i j : (i < 4)%nat -> (j < 4)%nat -> perm_on 4 (swap i j).
  Proof.
    intros Hi Hj. unfold swap. split; intros k; [intros Hk|intros l Hk Hl]; destruct (Nat.eqb_spec k i), (Nat.eqb_spec k j); try destruct (Nat.eqb_spec l i), (Nat.eqb_spec l j); lia.
  Qed.
  Lemma centre : n = 4%nat -> node3 [1%nat; 1%nat; 1%nat] = [- (1 / 2); - (1 / 2); - (1 / 2)].
  Proof.
    intros E. unfold node3. rewrite tuple_bary_full by (lia || (unfold sum_nat; cbn [fold_right]; lia)). unfold full, sum_nat. cbn [fold_right]. replace (n - (1 + (1 + (1 + 0))))%nat with 1%nat by lia.
    set (c := [1; 1; 1; 1]%nat). set (v := move3 F al (scaled n c)). assert (LV : length v = 4%nat) by (apply (move3_len F al); reflexivity).
    assert (SV : list_sum v = 1).
    { apply move3_sum; [easy|reflexivity|]. unfold c, scaled, list_sum. cbn [map fold_right]. rewrite E. cbn. field. }
    assert (PV : forall j, (j < 4)%nat -> nth 0 v 0 = nth j v 0).
    { intros j Hj. assert (Q := move3_perm n xs F al Hn1 SX EW Hb (swap 0 j) c (swap_perm 0 j ltac:(lia) Hj) eq_refl ltac:(unfold c, sum_nat; cbn [fold_right]; lia)).
      assert (EP : permuted 0 4 (swap 0 j) (scaled n c) = scaled n c).
      { unfold permuted. cbn [seq map]. destruct j as [|[|[|[|j]]]]; try lia; reflexivity. }
      rewrite EP in Q. fold v in Q. assert (X := f_equal (fun l => nth 0 l 0) Q). cbv beta in X. rewrite permuted_nth in X by lia. exact X. }
    destruct v as [|v0 [|v1 [|v2 [|v3 [|]]]]]; try discriminate. pose proof (PV 1%nat ltac:(lia)) as P1. pose proof (PV 2%nat ltac:(lia)) as P2. pose proof (PV 3%nat ltac:(lia)) as P3.
    cbn [nth] in P1, P2, P3. unfold list_sum in SV. cbn [fold_right] in SV. unfold unit_of. cbn [tl map]. repeat (apply cons_eq; [lra|]). reflexivity.
  Qed.
  Definition bounds3 (a b c : nat) (x y z : R) : Prop :=
    (a = 0%nat -> x = -1) /\ ((1 <= a)%nat -> -1 + 1 / 20 <= x) /\ (b = 0%nat -> y = -1) /\ ((1 <= b)%nat -> -1 + 1 / 20 <= y) /\ (c = 0%nat -> z = -1) /\ ((1 <= c)%nat -> -1 + 1 / 20 <= z)
    /\ ((a + b + c)%nat = n -> x + y + z = -1) /\ ((a + b + c < n)%nat -> x + y + z <= -1 - 1 / 20).
  Lemma node3_bounds a b c : (a + b + c <= n)%nat -> exists x y z, node3 [a; b; c] = [x; y; z] /\ bounds3 a b c x y z.
  Proof.
    intros S. assert (D : (a = 0 \/ b = 0 \/ c = 0 \/ a + b + c = n)%nat \/ (1 <= a /\ 1 <= b /\ 1 <= c /\ a + b + c < n)%nat) by lia.
    destruct D as [[D|[D|[D|D]]]|D]; unfold bounds3.
    - subst a. destruct (node2_bounds b c ltac:(lia)) as (x & y & E & B). exists (-1), x, y. rewrite face1, E by lia. split; [reflexivity|]. destruct B as (X0 & X1 & Y0 & Y1 & Zn & Zl).
      repeat split; intros K; try lia; auto; try lra; [specialize (Zn ltac:(lia))|specialize (Zl ltac:(lia))]; lra.
    - subst b. destruct (face2 a c ltac:(lia)) as (x & y & E & E3). destruct (node2_bounds a c ltac:(lia)) as (x' & y' & E' & B). rewrite E' in E. injection E as -> ->. exists x, (-1), y. split; [exact E3|]. destruct B as (X0 & X1 & Y0 & Y1 & Zn & Zl).
      repeat split; intros K; try lia; auto; try lra; [specialize (Zn ltac:(lia))|specialize (Zl ltac:(lia))]; lra.
    - subst c. destruct (face3 a b ltac:(lia)) as (x & y & E & E3). destruct (node2_bounds a b ltac:(lia)) as (x' & y' & E' & B). rewrite E' in E. injection E as -> ->. exists x, y, (-1). split; [exact E3|]. destruct B as (X0 & X1 & Y0 & Y1 & Zn & Zl).
      repeat split; intros K; try lia; auto; try lra; [specialize (Zn ltac:(lia))|specialize (Zl ltac:(lia))]; lra.
    - destruct (face0 a b c D) as (x & y & E & E3). destruct (node2_bounds b c ltac:(lia)) as (x' & y' & E' & B). rewrite E' in E. injection E as -> ->. exists (-1 - x - y), x, y. split; [exact E3|]. destruct B as (X0 & X1 & Y0 & Y1 & Zn & Zl).
      repeat split; intros K; try lia; auto; try lra; [specialize (Zn ltac:(lia))|specialize (Zl ltac:(lia))]; lra.
    - assert (n = 4%nat) as E by lia. assert (a = 1 /\ b = 1 /\ c = 1)%nat as (-> & -> & ->) by lia. rewrite (centre E). exists (- (1 / 2)), (- (1 / 2)), (- (1 / 2)). split; [reflexivity|].
      repeat split; intros; lra || lia.
  Qed.
  Lemma tet_unisolvent : poly_unisolvent 3 n (map node3 (gnitsam n 3)).
  Proof.
    intros f Hf HZ. assert (V : forall a b c, (a + b + c <= n)%nat -> f (node3 [a; b; c]) = 0).
    { intros a b c S. apply HZ. apply in_map. apply gnitsam_in. split; [reflexivity|unfold sum_nat; cbn [fold_right]; lia]. }
    assert (G : forall h, is_poly 2 n h -> (forall a b, (a + b <= n)%nat -> h (node2 n F al [a; b]) = 0) -> forall x y, h [x; y] = 0).
    { intros h Hh HV x y. apply tri_unisolvent; [exact Hh| |reflexivity]. intros z Hz. apply in_map_iff in Hz. destruct Hz as (t & <- & Ht). apply gnitsam_in in Ht. destruct Ht as [L S].
      destruct t as [|a [|b [|]]]; try discriminate. apply HV. unfold sum_nat in S. cbn [fold_right] in S. lia. }
    assert (F1 : forall y z, f [-1; y; z] = 0).
    { intros y z. apply (G (fun x => f [-1; nth 0 x 0; nth 1 x 0])).
      - apply (is_poly_coords 2 3 n f [(fun _ => -1); (fun x => nth 0 x 0); (fun x => nth 1 x 0)]); [reflexivity| |easy]. repeat constructor; aff.
      - intros a b S. destruct (node2_bounds a b S) as (u & v & E & _). specialize (V 0%nat a b ltac:(lia)). rewrite face1, E in V by lia. rewrite E. exact V. }
    assert (F2 : forall x z, f [x; -1; z] = 0).
    { intros y z. apply (G (fun x => f [nth 0 x 0; -1; nth 1 x 0])).
      - apply (is_poly_coords 2 3 n f [(fun x => nth 0 x 0); (fun _ => -1); (fun x => nth 1 x 0)]); [reflexivity| |easy]. repeat constructor; aff.
      - intros a b S. destruct (face2 a b S) as (u & v & E & E3). specialize (V a 0%nat b ltac:(lia)). rewrite E3 in V. rewrite E. exact V. }
    assert (F3 : forall x y, f [x; y; -1] = 0).
    { intros y z. apply (G (fun x => f [nth 0 x 0; nth 1 x 0; -1])).
      - apply (is_poly_coords 2 3 n f [(fun x => nth 0 x 0); (fun x => nth 1 x 0); (fun _ => -1)]); [reflexivity| |easy]. repeat constructor; aff.
      - intros a b S. destruct (face3 a b S) as (u & v & E & E3). specialize (V a b 0%nat ltac:(lia)). rewrite E3 in V. rewrite E. exact V. }
    assert (F0' : forall x y, f [-1 - x - y; x; y] = 0).
    { intros y z. apply (G (fun x => f [-1 - nth 0 x 0 - nth 1 x 0; nth 0 x 0; nth 1 x 0])).
      - apply is_poly_ext with (fun x => f [-1 + (-1 * nth 0 x 0 + -1 * nth 1 x 0); nth 0 x 0; nth 1 x 0]); [intros x _; apply f_equal; apply cons_eq; [ring|reflexivity]|].
        apply (is_poly_coords 2 3 n f [(fun x => -1 + (-1 * nth 0 x 0 + -1 * nth 1 x 0)); (fun x => nth 0 x 0); (fun x => nth 1 x 0)]); [reflexivity| |easy]. repeat constructor; aff.
      - intros a b S. destruct (face0 (n - (a + b)) a b ltac:(lia)) as (u & v & E & E3). specialize (V (n - (a + b))%nat a b ltac:(lia)). rewrite E3 in V. rewrite E. exact V. }
    assert (F4 : forall x y, f [x; y; - 1 - x - y] = 0).
    { intros x y. rewrite <- (F0' y (-1 - x - y)). apply f_equal. apply cons_eq; [ring|reflexivity]. }
    destruct (tet_vanish n f Hf F1 F2 F3 F4) as (g & Hg & Hl & E). intros x Hx. destruct x as [|u [|v [|w [|]]]]; try discriminate. rewrite E.
    destruct (Nat.lt_ge_cases n 4) as [L|G4]; [rewrite (Hl L) by reflexivity; ring|].
    assert (E4 : n = 4%nat) by lia. assert (Hg0 : is_poly 3 0 g) by (rewrite E4 in Hg; exact Hg). destruct (is_poly_const_eq 3 g Hg0) as (k & Hk).
    specialize (V 1%nat 1%nat 1%nat ltac:(lia)). rewrite (centre E4), E, Hk in V by reflexivity. rewrite Hk by reflexivity. assert (k = 0) as -> by lra. ring.
  Qed.
  Lemma node3_len t : length t = 3%nat -> length (node3 t) = 3%nat.
  Proof. intros L. unfold node3, unit_of. rewrite map_length. assert (X := move3_len F al (tuple_bary n t)). rewrite tuple_bary_len, L in X. specialize (X eq_refl). destruct (move3 F al (tuple_bary n t)); cbn in *; lia. Qed.
  Lemma tet_nodes : nodes_of (PN 3 n) (map node3 (gnitsam n 3)).
  Proof.
    constructor.
    - rewrite map_length. apply gnitsam_length.
    - intros x Hx. apply in_map_iff in Hx. destruct Hx as (t & <- & Ht). apply gnitsam_in in Ht. destruct Ht as [L S]. split; [now apply node3_len|].
      destruct t as [|a [|b [|c [|]]]]; try discriminate. unfold sum_nat in S. cbn [fold_right] in S.
      destruct (node3_bounds a b c ltac:(lia)) as (x & y & z & -> & (X0 & X1 & Y0 & Y1 & Z0 & Z1 & Sn & Sl)).
      cbn [good_point nth]. pose proof (tiny 10 ltac:(lia)) as T. unfold good3.
      assert (Le : x + y + z <= -1) by (destruct (Nat.eq_dec (a + b + c) n) as [E|E]; [specialize (Sn E); lra|specialize (Sl ltac:(lia)); lra]).
      assert (Xl : -1 <= x) by (destruct (Nat.eq_dec a 0) as [E|E]; [specialize (X0 E); lra|specialize (X1 ltac:(lia)); lra]).
      split.
      + assert (D : (a = 0 /\ b + c = n)%nat \/ y + z <= - (1 / 20)).
        { destruct (Nat.eq_dec a 0) as [->|N]; [|right; specialize (X1 ltac:(lia)); lra]. destruct (Nat.eq_dec (b + c) n); [left; lia|]. right. specialize (X0 eq_refl). specialize (Sl ltac:(lia)). lra. }
        destruct D as [[-> E]|D]; [right; specialize (X0 eq_refl); specialize (Sn ltac:(lia)); lra|left]. rewrite Rabs_left1 by lra. lra.
      + assert (D : (a = 0 /\ b = 0 /\ c = n)%nat \/ z <= 1 - 1 / 20).
        { destruct (Nat.eq_dec b 0) as [->|N]; [|right; specialize (Y1 ltac:(lia)); lra]. specialize (Y0 eq_refl).
          destruct (Nat.eq_dec a 0) as [->|N]; [|right; specialize (X1 ltac:(lia)); lra]. specialize (X0 eq_refl).
          destruct (Nat.eq_dec c n); [left; lia|]. right. specialize (Sl ltac:(lia)). lra. }
        destruct D as [(-> & -> & ->)|D]; [right; specialize (X0 eq_refl); specialize (Y0 eq_refl); specialize (Sn ltac:(lia)); lra|left]. rewrite Rabs_left1 by lra. lra.
    - apply tet_unisolvent.
  Qed.
End Low.
