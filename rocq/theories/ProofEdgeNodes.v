(** * Warp-and-blend nodes of low order are unisolvent; the triangle's nodes are unisolvent
    as soon as the interior ones are *)
From Coq Require Import List Arith Bool ZArith Reals Lra Lia.
From Verif Require Import Py RSum PyToolsModel ModelNd ModelShapes ModelSpaces ModelNodes ModelModes ModelBasis ModelQuad ModelGauss ModelMatrices ModelTools ModelWarpBlend.
From Verif Require Import SpecGeometry SpecIndex SpecPoly EnumFacts ProofQuad ProofPoly1 ProofGauss3 ProofWarpBlend ProofWarpBlend2 ProofWarpBlend3 PropsGauss PropsLobatto PropsTools PropsWarpBlend
  ProofUnisolvent ProofDivide.
From Verif Require ModelFaces ModelGM.
Import ListNotations.
Local Open Scope R_scope.

Lemma line_poly (g : nat -> R) n f : inj_upto g n -> is_poly 1 n f -> (forall k, (k <= n)%nat -> f [g k] = 0) -> forall x, f [x] = 0.
Proof.
  intros Hg Hf HZ x. apply (poly_zero g 1 n f Hg Hf); [|reflexivity].
  intros y Hy. apply in_map_iff in Hy. destruct Hy as (t & <- & Ht). apply gnitsam_in in Ht. destruct Ht as [L T].
  destruct t as [|k [|]]; try discriminate. unfold sum_nat in T. cbn in T. apply HZ. lia.
Qed.
Lemma sym_inj n xs : sym_points n xs -> inj_upto (fun k => nth k xs 0) n.
Proof.
  intros (_ & _ & _ & HI & _) i j Hi Hj E. destruct (Nat.lt_total i j) as [H|[H|H]]; [|easy|].
  - specialize (HI i j ltac:(lia)). lra.
  - specialize (HI j i ltac:(lia)). lra.
Qed.

(** ** The triangle *)
Definition interior2 (n : nat) (t : list nat) : Prop := exists a b, t = [a; b] /\ (1 <= a)%nat /\ (1 <= b)%nat /\ (a + b < n)%nat.
Section Tri.
  Context (n : nat) (xs : list R) (F : R -> R) (al : R).
  Hypothesis Hn : (1 <= n)%nat.
  Hypothesis SX : sym_points n xs.
  Hypothesis EW : edge_warp n xs F.
  Hypothesis FO : forall x, F (- x) = - F x.
  Definition node2 (t : list nat) : list R := unit_of (move2 F al (tuple_bary n t)).

  Lemma node2_edge a b : (a + b <= n)%nat -> a = 0%nat \/ b = 0%nat \/ (a + b = n)%nat -> node2 [a; b] = [nth a xs 0; nth b xs 0].
  Proof.
    intros HS HE. unfold node2. rewrite tuple_bary_full by (easy || (unfold sum_nat; cbn [fold_right]; lia)). unfold full, sum_nat. cbn [fold_right].
    unfold move2. rewrite (edge2 n xs F al Hn SX EW) by lia.
    unfold scaled, ModelFaces.vadd, ModelFaces.map2. cbn [map combine]. rewrite unit_of_cons. cbn [map]. apply cons_eq; [field|apply cons_eq; [field|reflexivity]]; apply not_0_INR; lia.
  Qed.
  Lemma node2_len t : length t = 2%nat -> length (node2 t) = 2%nat.
  Proof. intros L. unfold node2, unit_of. rewrite map_length. assert (X := move2_len F al (tuple_bary n t)). rewrite tuple_bary_len, L in X. specialize (X eq_refl). destruct (move2 F al (tuple_bary n t)); cbn in *; lia. Qed.

  Lemma tri_edges f : is_poly 2 n f -> (forall t, In t (gnitsam n 2) -> ~ interior2 n t -> f (node2 t) = 0) ->
    (forall y, f [-1; y] = 0) /\ (forall x, f [x; -1] = 0) /\ (forall x, f [x; - x] = 0).
  Proof.
    intros Hf HZ. destruct SX as (_ & X0 & Xn & _ & XS). pose proof (sym_inj n xs SX) as XI.
    assert (V : forall a b, (a + b <= n)%nat -> a = 0%nat \/ b = 0%nat \/ (a + b = n)%nat -> f [nth a xs 0; nth b xs 0] = 0).
    { intros a b H1 H2. rewrite <- node2_edge by easy. apply HZ; [apply gnitsam_in; split; [reflexivity|unfold sum_nat; cbn [fold_right]; lia]|].
      intros (a' & b' & E & K). injection E as <- <-. lia. }
    split; [|split].
    - intros y. apply (line_poly _ n (fun x => f [-1; nth 0 x 0]) XI).
      + apply (is_poly_coords 1 2 n f [(fun _ => -1); (fun x => nth 0 x 0)]); [reflexivity| |easy]. repeat constructor; aff.
      + intros k Hk. cbn [nth]. rewrite <- X0. apply V; lia.
    - intros y. apply (line_poly _ n (fun x => f [nth 0 x 0; -1]) XI).
      + apply (is_poly_coords 1 2 n f [(fun x => nth 0 x 0); (fun _ => -1)]); [reflexivity| |easy]. repeat constructor; aff.
      + intros k Hk. cbn [nth]. rewrite <- X0. apply V; lia.
    - intros y. apply (line_poly _ n (fun x => f [nth 0 x 0; - nth 0 x 0]) XI).
      + apply is_poly_ext with (fun x => f [nth 0 x 0; -1 * nth 0 x 0]); [intros; do 2 f_equal; f_equal; ring|].
        apply (is_poly_coords 1 2 n f [(fun x => nth 0 x 0); (fun x => -1 * nth 0 x 0)]); [reflexivity| |easy]. repeat constructor; aff.
      + intros k Hk. cbn [nth]. rewrite <- XS by easy. apply V; lia.
  Qed.
  Lemma bubble_poly g m : is_poly 2 m g -> is_poly 2 (S (S (S m))) (fun x => (nth 0 x 0 + 1) * (nth 1 x 0 + 1) * (nth 0 x 0 + nth 1 x 0) * g x).
  Proof.
    intros Hg. change (S (S (S m))) with (3 + m)%nat. apply is_poly_mult; [|easy]. change 3%nat with (2 + 1)%nat. apply is_poly_mult; [|aff].
    change 2%nat with (1 + 1)%nat at 2. apply is_poly_mult; aff.
  Qed.
  Lemma tri_reduce : (3 <= n)%nat -> (forall t, interior2 n t -> nth 0 (node2 t) 0 + 1 <> 0 /\ nth 1 (node2 t) 0 + 1 <> 0 /\ nth 0 (node2 t) 0 + nth 1 (node2 t) 0 <> 0) ->
    poly_unisolvent 2 n (map node2 (gnitsam n 2))
    <-> forall g, is_poly 2 (n - 3) g -> (forall t, interior2 n t -> g (node2 t) = 0) -> forall x, length x = 2%nat -> g x = 0.
  Proof.
    intros H3 HI. destruct n as [|[|[|m]]] eqn:En; try lia. replace (S (S (S m)) - 3)%nat with m by lia. rewrite <- En in *. split.
    - intros HU g Hg HZ. apply (poly_zero_pos 2 m g Hg). intros x Hx Hp. destruct x as [|a [|b [|]]]; try discriminate.
      inversion Hp as [|? ? P1 P2]; subst. inversion P2; subst.
      assert (Q := bubble_poly g m Hg). rewrite <- En in Q. assert (Z := fun W => HU _ Q W [a; b] eq_refl). cbn [nth] in Z.
      assert (Y : (a + 1) * (b + 1) * (a + b) * g [a; b] = 0).
      { apply Z. intros y Hy. apply in_map_iff in Hy. destruct Hy as (t & <- & Ht). apply gnitsam_in in Ht. destruct Ht as [L S].
        destruct t as [|c [|e [|]]]; try discriminate. unfold sum_nat in S. cbn [fold_right] in S.
        assert (D : interior2 n [c; e] \/ (c = 0 \/ e = 0 \/ c + e = n)%nat).
        { destruct (Nat.eq_dec c 0); [right; lia|]. destruct (Nat.eq_dec e 0); [right; lia|]. destruct (Nat.eq_dec (c + e) n); [right; lia|].
          left. exists c, e. repeat split; lia. }
        destruct D as [D|D]; [rewrite (HZ _ D); ring|]. rewrite node2_edge by lia. cbn [nth]. destruct SX as (_ & X0 & Xn & _ & XS).
        destruct D as [->|[->|D]]; [rewrite X0; ring|rewrite X0; ring|]. replace e with (n - c)%nat by lia. rewrite XS by lia. ring. }
      apply Rmult_integral in Y. destruct Y as [Y|Y]; [|easy]. apply Rmult_integral in Y. destruct Y as [Y|Y]; [|lra]. apply Rmult_integral in Y. destruct Y; lra.
    - intros HU f Hf HZ x Hx. destruct (tri_edges f) as (E1 & E2 & E3); [easy| |].
      { intros t Ht _. apply HZ. apply in_map_iff. eauto. }
      rewrite En in Hf. destruct (tri_bubble m f Hf E1 E2 E3) as (g & Hg & E).
      destruct x as [|a [|b [|]]]; try discriminate. rewrite E. rewrite (HU g Hg); [ring| |reflexivity].
      intros t Ht. destruct (HI t Ht) as (I1 & I2 & I3). assert (L : length (node2 t) = 2%nat) by (apply node2_len; now destruct Ht as (? & ? & -> & _)).
      destruct (node2 t) as [|u [|v [|]]] eqn:ET; try discriminate. cbn [nth] in *.
      assert (V : f [u; v] = 0).
      { apply HZ. rewrite <- ET. apply in_map. apply gnitsam_in. destruct Ht as (a' & b' & -> & T). split; [reflexivity|unfold sum_nat; cbn [fold_right]; lia]. }
      rewrite E in V. apply Rmult_integral in V. destruct V as [V|V]; [|easy]. exfalso. apply Rmult_integral in V. destruct V as [V|V]; [|lra]. apply Rmult_integral in V. destruct V; lra.
  Qed.
  Lemma tri_low : (n <= 2)%nat -> map node2 (gnitsam n 2) = map (map (fun k => nth k xs 0)) (gnitsam n 2).
  Proof.
    intros H2. apply map_ext_in. intros t Ht. apply gnitsam_in in Ht. destruct Ht as [L S]. destruct t as [|a [|b [|]]]; try discriminate.
    unfold sum_nat in S. cbn [fold_right] in S. cbn [map]. apply node2_edge; lia.
  Qed.
  Lemma F0 : F 0 = 0.
  Proof. specialize (FO 0). rewrite Ropp_0 in FO. lra. Qed.
End Tri.

Lemma node2_3 F al : (forall x, F (- x) = - F x) -> node2 3 F al [1%nat; 1%nat] = [- (1 / 3); - (1 / 3)].
Proof.
  intros FO. unfold node2. rewrite tuple_bary_full by (unfold sum_nat; cbn; lia). unfold full, sum_nat. cbn [fold_right Nat.add Nat.sub]. unfold scaled. cbn [map].
  unfold move2, disp2, push, ModelFaces.vadd, ModelFaces.map2. cbn [nth combine map unit_of tl]. rewrite Rminus_eq_0, (F0 F FO). unfold unit_of. cbn [tl map]. cbn [INR].
  apply cons_eq; [field|apply cons_eq; [field|reflexivity]].
Qed.
Definition shift4 (F : R -> R) (al : R) : R := F (1 / 4) / 4 * (1 + (al / 4) ^ 2).
Lemma node2_4 F al : (forall x, F (- x) = - F x) -> let e := shift4 F al in
  node2 4 F al [1%nat; 1%nat] = [- (1 / 2) - 2 * e; - (1 / 2) - 2 * e]
  /\ node2 4 F al [2%nat; 1%nat] = [4 * e; - (1 / 2) - 2 * e]
  /\ node2 4 F al [1%nat; 2%nat] = [- (1 / 2) - 2 * e; 4 * e].
Proof.
  intros FO e. assert (N1 : F (INR 1 / INR 4 - INR 2 / INR 4) = - F (1 / 4)) by (rewrite <- FO; f_equal; cbn; field).
  assert (N2 : F (INR 2 / INR 4 - INR 1 / INR 4) = F (1 / 4)) by (f_equal; cbn; field).
  unfold node2. rewrite !tuple_bary_full by (unfold sum_nat; cbn; lia). unfold full, sum_nat. cbn [fold_right Nat.add Nat.sub]. unfold scaled. cbn [map].
  unfold move2, disp2, push, ModelFaces.vadd, ModelFaces.map2. cbn [nth combine map]. rewrite !Rminus_eq_0, (F0 F FO), !N1, !N2. unfold unit_of. cbn [tl map].
  replace (INR 1 / INR 4) with (1 / 4) by (cbn; field). replace (INR 2 / INR 4) with (1 / 2) by (cbn; field). unfold e, shift4.
  split; [|split]; (apply cons_eq; [field|apply cons_eq; [field|reflexivity]]).
Qed.
