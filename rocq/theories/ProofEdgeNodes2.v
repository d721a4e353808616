(** * Low-order warp-and-blend nodes: values of the Gauss-Lobatto points, triangle and tetrahedron *)
From Coquelicot Require Import Coquelicot.
From Coq Require Import List Arith Bool ZArith Reals Lra Lia.
From Verif Require Import Py RSum PyToolsModel ModelNd ModelShapes ModelSpaces ModelNodes ModelModes ModelBasis ModelQuad ModelGauss ModelMatrices ModelTools ModelWarpBlend.
From Verif Require Import SpecGeometry SpecIndex SpecPoly EnumFacts ProofQuad ProofPoly1 ProofGauss3 ProofWarpBlend ProofWarpBlend2 ProofWarpBlend3 PropsGauss PropsLobatto PropsTools PropsWarpBlend
  ProofUnisolvent ProofDivide ProofEdgeNodes.
From Verif Require ModelFaces ModelGM.
Import ListNotations.
Local Open Scope R_scope.

Lemma RInt_even (a b c d : R) : is_RInt (fun x => a + b * x ^ 2 + c * x ^ 4 + d * x ^ 6) (-1) 1 (2 * a + 2 * b / 3 + 2 * c / 5 + 2 * d / 7).
Proof.
  replace (2 * a + 2 * b / 3 + 2 * c / 5 + 2 * d / 7) with
    ((fun x => a * x + b * x ^ 3 / 3 + c * x ^ 5 / 5 + d * x ^ 7 / 7) 1 - (fun x => a * x + b * x ^ 3 / 3 + c * x ^ 5 / 5 + d * x ^ 7 / 7) (-1)) by (cbv beta; field).
  apply (@is_RInt_derive R_CompleteNormedModule (fun x => a * x + b * x ^ 3 / 3 + c * x ^ 5 / 5 + d * x ^ 7 / 7)).
  - intros x _. auto_derive; [easy|req; field].
  - intros x _. apply continuity_pt_filterlim. reg.
Qed.
Lemma even_poly m (a b c d : R) : (6 <= m)%nat -> is_poly 1 m (fun l => a + b * nth 0 l 0 ^ 2 + c * nth 0 l 0 ^ 4 + d * nth 0 l 0 ^ 6).
Proof.
  intros Hm. assert (M : forall k u, (k <= m)%nat -> is_poly 1 m (fun l => u * nth 0 l 0 ^ k)).
  { intros k u Hk. apply is_poly_scal. apply is_poly_weaken with (k * 1)%nat; [lia|]. apply (is_poly_pow 1 1 (fun l => nth 0 l 0)). apply is_poly_coord. lia. }
  repeat apply is_poly_plus; try (apply M; lia). apply is_poly_const.
Qed.
Lemma even_poly4 m (a b c : R) : (4 <= m)%nat -> is_poly 1 m (fun l => a + b * nth 0 l 0 ^ 2 + c * nth 0 l 0 ^ 4 + 0 * nth 0 l 0 ^ 6).
Proof.
  intros Hm. assert (M : forall k u, (k <= m)%nat -> is_poly 1 m (fun l => u * nth 0 l 0 ^ k)).
  { intros k u Hk. apply is_poly_scal. apply is_poly_weaken with (k * 1)%nat; [lia|]. apply (is_poly_pow 1 1 (fun l => nth 0 l 0)). apply is_poly_coord. lia. }
  apply is_poly_ext with (fun l => a + b * nth 0 l 0 ^ 2 + c * nth 0 l 0 ^ 4); [intros; ring|].
  repeat apply is_poly_plus; try (apply M; lia). apply is_poly_const.
Qed.
Lemma lgl_rule eigh rj n xs : (1 <= n)%nat -> good_eigh eigh n -> lgl_nodes eigh rj n None true = Ok (xs, false) ->
  exists ws, length ws = S n /\ forall a b c d, (4 <= 2 * n - 1)%nat -> (d = 0 \/ (6 <= 2 * n - 1)%nat) ->
    dotR ws (map (fun x => a + b * x ^ 2 + c * x ^ 4 + d * x ^ 6) xs) = 2 * a + 2 * b / 3 + 2 * c / 5 + 2 * d / 7.
Proof.
  intros Hn [HE _] EX. destruct (C38_legendre_rule n eigh rj None true Hn HE ltac:(now left)) as (q & mid & Eq & _ & _ & _ & _ & Lw & _).
  destruct (C38_nodes eigh rj 0 0 n None true (xs, false) Hn EX) as (_ & _ & HQ). specialize (HQ true q Eq). cbn [fst] in HQ.
  exists (q_weights q). split; [lia|]. intros a b c d H4 H6.
  destruct (C38_legendre_exact n eigh rj None true q (fun l => a + b * nth 0 l 0 ^ 2 + c * nth 0 l 0 ^ 4 + d * nth 0 l 0 ^ 6) HE ltac:(now left) Eq) as (v & Hv & Ev).
  { destruct H6 as [->|H6]; [now apply even_poly4|now apply even_poly]. }
  cbn [nth] in Hv. assert (v = 2 * a + 2 * b / 3 + 2 * c / 5 + 2 * d / 7) by (exact (eq_trans (eq_sym (is_RInt_unique _ _ _ _ Hv)) (is_RInt_unique _ _ _ _ (RInt_even a b c d)))). subst v.
  rewrite (q_call_rule _ _ (fun l => a + b * nth 0 l 0 ^ 2 + c * nth 0 l 0 ^ 4 + d * nth 0 l 0 ^ 6)) in Ev; [|split|reflexivity].
  - unfold rule in Ev. rewrite HQ, map_map in Ev. cbn [nth] in Ev. congruence.
  - assert (Q1 : q_dim q = 1%nat) by (destruct (C38_legendre_rule n eigh rj None true Hn HE ltac:(now left)) as (q' & ? & Eq' & _ & _ & _ & _ & _ & _ & _ & Q1 & _); assert (q' = q) by congruence; now subst q').
    rewrite HQ, Q1. apply Forall_forall. intros x Hx. apply in_map_iff in Hx. destruct Hx as (y & <- & _). reflexivity.
  - rewrite HQ, map_length, Lw. assert (Lx : length xs = S n); [|lia].
    assert (X := f_equal (@length _) HQ). rewrite map_length in X. rewrite <- X.
    destruct (C38_legendre_rule n eigh rj None true Hn HE ltac:(now left)) as (q' & mid' & Eq' & QN & _ & _ & LM & _); assert (q' = q) by congruence; subst q'.
    rewrite QN. cbn [length]. rewrite app_length. cbn [length]. lia.
Qed.
Lemma sq_bound t c d : 0 <= d -> t ^ 2 = c -> c <= d ^ 2 -> Rabs t <= d.
Proof. intros Hd E Hc. apply Rabs_le. nra. Qed.
Lemma lgl_low eigh rj n xs : (1 <= n <= 4)%nat -> good_eigh eigh n -> lgl_nodes eigh rj n None true = Ok (xs, false) -> sym_points n xs ->
  (forall k, (1 <= k)%nat -> (k < n)%nat -> Rabs (nth k xs 0) <= 7 / 10) /\ (n = 4%nat -> 1 / 2 <= nth 3 xs 0 <= 2 / 3).
Proof.
  intros Hn HG EX SX. destruct (lgl_rule eigh rj n xs ltac:(lia) HG EX) as (ws & LW & HR). pose proof SX as (LX & X0 & Xn & XI & XS).
  destruct n as [|[|[|[|[|n]]]]]; try lia.
  - split; intros; lia.
  - split; [|intros; lia]. intros k K1 K2. assert (k = 1)%nat as -> by lia. specialize (XS 1%nat ltac:(lia)). cbn [Nat.sub] in XS.
    assert (nth 1 xs 0 = 0) as -> by lra. rewrite Rabs_R0. lra.
  - split; [|intros; lia]. assert (S1 := XS 1%nat ltac:(lia)). cbn [Nat.sub] in S1. pose proof (XI 1%nat 2%nat ltac:(lia)) as I1. pose proof (XI 2%nat 3%nat ltac:(lia)) as I2.
    assert (T : nth 2 xs 0 ^ 2 = 1 / 5).
    { destruct xs as [|x0 [|x1 [|x2 [|x3 [|]]]]]; try discriminate. destruct ws as [|w0 [|w1 [|w2 [|w3 [|]]]]]; try discriminate. cbn [nth] in *. subst x0 x3 x2.
      pose proof (HR 1 (-1) 0 0 ltac:(lia) ltac:(now left)) as Q1. pose proof (HR 0 1 (-1) 0 ltac:(lia) ltac:(now left)) as Q2. unfold dotR in Q1, Q2. cbn [map combine fold_right fst snd] in Q1, Q2.
      set (s := x1 ^ 2). assert (E4 : x1 ^ 4 = s * s) by (unfold s; ring). replace ((- x1) ^ 2) with s in * by (unfold s; ring). replace ((- x1) ^ 4) with (s * s) in * by (unfold s; ring).
      fold s in Q1, Q2. rewrite E4 in *. ring_simplify in Q1. ring_simplify in Q2.
      assert (R1 : (w1 + w2) * (1 - s) = 4 / 3) by lra. assert (R2 : (w1 + w2) * (1 - s) * s = 4 / 15) by lra. rewrite R1 in R2. lra. }
    assert (B : Rabs (nth 2 xs 0) <= 7 / 10) by (apply (sq_bound _ _ (7 / 10) ltac:(lra) T); lra).
    intros k K1 K2. assert (k = 1 \/ k = 2)%nat as [->| ->] by lia; [|exact B]. rewrite S1, Rabs_Ropp in B. exact B.
  - assert (S1 := XS 1%nat ltac:(lia)). cbn [Nat.sub] in S1. assert (S2 := XS 2%nat ltac:(lia)). cbn [Nat.sub] in S2. pose proof (XI 2%nat 3%nat ltac:(lia)) as I2.
    assert (Z2 : nth 2 xs 0 = 0) by lra.
    assert (T : nth 3 xs 0 ^ 2 = 3 / 7).
    { destruct xs as [|x0 [|x1 [|x2 [|x3 [|x4 [|]]]]]]; try discriminate. destruct ws as [|w0 [|w1 [|w2 [|w3 [|w4 [|]]]]]]; try discriminate. cbn [nth] in *. subst x0 x4 x3 x2.
      pose proof (HR 0 1 (-1) 0 ltac:(lia) ltac:(now left)) as Q1. pose proof (HR 0 0 1 (-1) ltac:(lia) ltac:(right; lia)) as Q2. unfold dotR in Q1, Q2. cbn [map combine fold_right fst snd] in Q1, Q2.
      set (s := x1 ^ 2). assert (E4 : x1 ^ 4 = s * s) by (unfold s; ring). assert (E6 : x1 ^ 6 = s * s * s) by (unfold s; ring).
      replace ((- x1) ^ 2) with s in * by (unfold s; ring). replace ((- x1) ^ 4) with (s * s) in * by (unfold s; ring). replace ((- x1) ^ 6) with (s * s * s) in * by (unfold s; ring).
      fold s in Q1, Q2. rewrite E4, E6 in *. ring_simplify in Q1. ring_simplify in Q2.
      assert (R1 : (w1 + w3) * (1 - s) * s = 4 / 15) by lra. assert (R2 : (w1 + w3) * (1 - s) * s * s = 4 / 35) by lra. rewrite R1 in R2. lra. }
    assert (B : Rabs (nth 3 xs 0) <= 7 / 10) by (apply (sq_bound _ _ (7 / 10) ltac:(lra) T); lra). split.
    + intros k K1 K2. assert (k = 1 \/ k = 2 \/ k = 3)%nat as [->|[->| ->]] by lia; [|rewrite Z2, Rabs_R0; lra|exact B]. rewrite S1, Rabs_Ropp in B. exact B.
    + intros _. assert (0 < nth 3 xs 0) by lra. split; nra.
Qed.
Lemma equi4 k : equi 4 k = -1 + INR k / 2.
Proof. unfold equi. cbn [INR]. field. Qed.
Lemma setup_low eigh rj n : (1 <= n <= 4)%nat -> good_eigh eigh n ->
  exists xs F, lgl_nodes eigh rj n None true = Ok (xs, false) /\ sym_points n xs /\ edge_warp n xs F
    /\ (forall outs, warp_factor eigh rj n outs true = Ok (map F outs)) /\ (forall x, F (- x) = - F x)
    /\ (forall k, (1 <= k)%nat -> (k < n)%nat -> Rabs (nth k xs 0) <= 7 / 10) /\ (n = 4%nat -> 0 <= F (1 / 4) <= 1 / 9).
Proof.
  intros Hn HG. pose proof HG as [H1 H2]. assert (Hb : INR n < 2 * 10 ^ 10).
  { assert (X := le_INR n 4 ltac:(lia)). replace (INR 4) with 4 in X by (cbn; ring). lra. }
  destruct (lgl_points eigh rj n None true ltac:(lia) H1 H2 ltac:(now left)) as (xs & EX & SX).
  destruct (warp_poly eigh rj n xs _ ltac:(lia) EX (proj1 SX)) as (g & PG & VG & WG). exists xs, (fun x => scale_warp x (g x)).
  destruct (lgl_low eigh rj n xs Hn HG EX SX) as (B1 & B4).
  split; [exact EX|]. split; [exact SX|]. split; [now apply warp_edge; [lia| | |]|]. split; [intros outs; exact (WG outs true)|]. split.
  - intros x. cbv beta. rewrite (warp_odd n xs g ltac:(lia) SX PG VG). apply scale_warp_odd.
  - split; [exact B1|]. intros ->. specialize (B4 eq_refl). pose proof SX as (LX & X0 & Xn & XI & XS).
    set (c := 8 / 3 * (nth 3 xs 0 - 1 / 2)).
    assert (E : forall x, g x - c * (x - x ^ 3) = 0).
    { apply (poly1_zero 4 _ (equi 4)).
      - apply poly1_minus; [exact PG|]. apply poly1_scal. apply poly1_minus; [apply poly1_weaken with 1%nat; [lia|apply poly1_x]|apply poly1_weaken with 3%nat; [lia|apply poly1_pow]].
      - intros i j Hij E. apply equi_distinct in E; lia.
      - intros i Hi. rewrite VG by lia. rewrite !equi4. unfold c. assert (S1 := XS 1%nat ltac:(lia)). assert (S2 := XS 2%nat ltac:(lia)). cbn [Nat.sub] in S1, S2.
        destruct i as [|[|[|[|[|i]]]]]; try lia; rewrite ?X0, ?Xn; cbn [INR]; field_simplify; lra. }
    specialize (E (1 / 4)). unfold scale_warp, Rlt_bool. pose proof inv10_10. assert (I10 : 0 < / 10 ^ 10) by (apply Rinv_0_lt_compat, pow_lt; lra).
    assert (S10 : / 10 ^ 10 < 1 / 2). { replace (1 / 2) with (/ 2) by field. apply Rinv_lt_contravar; [apply Rmult_lt_0_compat; lra|]. lra. }
    destruct (Rlt_dec (Rabs (1 / 4)) (1 - / 10 ^ 10)) as [_|N]; [|exfalso; apply N; rewrite Rabs_right by lra; lra].
    assert (EG : g (1 / 4) = c * (15 / 64)) by lra. rewrite EG. unfold c. split; field_simplify; lra.
Qed.
