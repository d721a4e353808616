(** * Rules on simplices and cubes from checked tables *)
From Coquelicot Require Import Coquelicot.
From Coq Require Import List Arith Bool ZArith Reals Lra Lia Uint63 Factorial.
From Verif Require Import Py ModelShapes ModelLinAlg ModelQuad ModelTools ModelTables.
From Verif Require Import RSum EnumFacts SpecIndex SpecGeometry SpecPoly SpecIntegral ProofDirichlet ProofQuad PropsQuad PropsTools
  ProofFixed ProofFixed2 ProofTables ProofTables2 ProofTables3.
Import ListNotations.
Local Open Scope R_scope.
Local Notation Rsqrt := R_sqrt.sqrt.

Lemma Z10_R k : IZR (Z10 (Z.of_nat k)) = 10 ^ k.
Proof. unfold Z10. now rewrite <- pow_IZR. Qed.
Lemma Z10_R2 k : IZR (Z10 (2 * Z.of_nat k)) = 10 ^ k * 10 ^ k.
Proof. unfold Z10. replace (2 * Z.of_nat k)%Z with (Z.of_nat (k + k)) by lia. rewrite <- pow_IZR. apply pow_add. Qed.
Lemma Z10_pos k : (0 <= k)%Z -> (0 < Z10 k)%Z.
Proof. intros. unfold Z10. apply Z.pow_pos_nonneg; lia. Qed.
Lemma pow10_pos k : 0 < 10 ^ k.
Proof. apply pow_lt. lra. Qed.

Definition a2 : list (R * list R) := [(1 / 3, [1 / 2; - (/ (2 * Rsqrt 3))]); (1 / 3, [0; / Rsqrt 3])].
Definition a3 : list (R * list R) :=
  [(1 / 4, [1 / 2; - (/ (2 * Rsqrt 3)); - (/ (2 * Rsqrt 6))]); (1 / 4, [0; / Rsqrt 3; - (/ (2 * Rsqrt 6))]); (1 / 4, [0; 0; Rsqrt 6 / 4])].

Lemma near_inv_sqrt sh k m x : (0 <= sh)%Z -> (0 < m)%Z -> 0 < x -> x * x = IZR m -> near_coef sh (IZR (coefS sh 1 (m * Z10 (2 * Z.of_nat k)))) (/ x / 10 ^ k).
Proof.
  intros H Hm Hx E. pose proof (pow10_pos k) as P. pose proof (Z10_pos (2 * Z.of_nat k) ltac:(lia)).
  assert (0 < / x) by now apply Rinv_0_lt_compat.
  apply near_S'; [easy|lia|nia| |].
  - left. now apply Rdiv_lt_0_compat.
  - rewrite mult_IZR, Z10_R2, <- E. field. lra.
Qed.
Lemma near_Q10 sh k m y : (0 <= sh)%Z -> (0 < m)%Z -> y = 1 / IZR m -> near_coef sh (IZR (coefQ sh 1 (m * Z10 (Z.of_nat k)))) (y / 10 ^ k).
Proof.
  intros H Hm ->. pose proof (pow10_pos k). pose proof (Z10_pos (Z.of_nat k) ltac:(lia)). replace (1 / IZR m / 10 ^ k) with (1 / IZR (m * Z10 (Z.of_nat k))).
  - apply near_Q; [easy|nia].
  - rewrite mult_IZR, Z10_R. assert (IZR m <> 0) by (apply not_0_IZR; lia). field. repeat split; first [assumption|lra].
Qed.
Lemma near_0' sh k : (0 <= sh)%Z -> near_coef sh 0 (0 / 10 ^ k).
Proof. intros H. replace (0 / 10 ^ k) with 0 by (unfold Rdiv; ring). now apply near_0. Qed.
Lemma near_opp' sh k c x : near_coef sh (IZR c) (x / 10 ^ k) -> near_coef sh (IZR (- c)) (- x / 10 ^ k).
Proof. intros H. replace (- x / 10 ^ k) with (- (x / 10 ^ k)) by (unfold Rdiv; ring). now apply near_opp. Qed.
Lemma sqrt3_facts : 0 < Rsqrt 3 /\ Rsqrt 3 * Rsqrt 3 = 3.
Proof. split; [apply sqrt_lt_R0; lra|apply R_sqrt.sqrt_sqrt; lra]. Qed.
Lemma sqrt6_facts : 0 < Rsqrt 6 /\ Rsqrt 6 * Rsqrt 6 = 6.
Proof. split; [apply sqrt_lt_R0; lra|apply R_sqrt.sqrt_sqrt; lra]. Qed.
Lemma sqrt2_facts : 0 < Rsqrt 2 /\ Rsqrt 2 * Rsqrt 2 = 2.
Proof. split; [apply sqrt_lt_R0; lra|apply R_sqrt.sqrt_sqrt; lra]. Qed.

Lemma equi2_near sh k : (0 <= sh)%Z -> Forall2 (near sh k) (equi2 sh (Z.of_nat k)) a2.
Proof.
  intros H. destruct sqrt3_facts as (P3 & E3). unfold equi2, a2.
  repeat first [apply Forall2_nil | apply Forall2_cons | split]; cbn [fst snd].
  - now apply (near_Q sh 1 3).
  - now apply near_Q10.
  - apply near_opp'. apply near_inv_sqrt; [easy|easy|lra|]. replace (2 * Rsqrt 3 * (2 * Rsqrt 3)) with (4 * (Rsqrt 3 * Rsqrt 3)) by ring. rewrite E3. ring.
  - now apply (near_Q sh 1 3).
  - now apply near_0'.
  - now apply near_inv_sqrt.
Qed.
Lemma equi3_near sh k : (0 <= sh)%Z -> Forall2 (near sh k) (equi3 sh (Z.of_nat k)) a3.
Proof.
  intros H. destruct sqrt3_facts as (P3 & E3). destruct sqrt6_facts as (P6 & E6). unfold equi3, a3.
  assert (X6 : 2 * Rsqrt 6 * (2 * Rsqrt 6) = 24) by (replace (2 * Rsqrt 6 * (2 * Rsqrt 6)) with (4 * (Rsqrt 6 * Rsqrt 6)) by ring; rewrite E6; ring).
  repeat first [apply Forall2_nil | apply Forall2_cons | split]; cbn [fst snd].
  - now apply (near_Q sh 1 4).
  - now apply near_Q10.
  - apply near_opp'. apply near_inv_sqrt; [easy|easy|lra|]. replace (2 * Rsqrt 3 * (2 * Rsqrt 3)) with (4 * (Rsqrt 3 * Rsqrt 3)) by ring. rewrite E3. ring.
  - apply near_opp'. apply near_inv_sqrt; [easy|easy|lra|easy].
  - now apply (near_Q sh 1 4).
  - now apply near_0'.
  - now apply near_inv_sqrt.
  - apply near_opp'. apply near_inv_sqrt; [easy|easy|lra|easy].
  - now apply (near_Q sh 1 4).
  - now apply near_0'.
  - now apply near_0'.
  - pose proof (pow10_pos k) as P. pose proof (Z10_pos (2 * Z.of_nat k) ltac:(lia)). apply near_S'; [easy|lia|nia| |].
    + left. apply Rdiv_lt_0_compat; lra.
    + rewrite mult_IZR, Z10_R2. replace (Rsqrt 6 / 4 / 10 ^ k * (Rsqrt 6 / 4 / 10 ^ k)) with (Rsqrt 6 * Rsqrt 6 / (16 * (10 ^ k * 10 ^ k))) by (field; lra).
      rewrite E6. field. lra.
Qed.

(** ** A rule read from a table and what is claimed of it *)
Definition table_eps : R := 5 / 10 ^ 14.
Definition tabulated (q : quad) (s : shape) (n : nat) : Prop :=
  wf_quad q /\ q_dim q = shape_dim s /\ exact_to q = Ok (degree n) /\ Forall (fun w => 0 < w) (q_weights q) /\ Forall (in_shape s) (q_nodes q)
  /\ integrates_within q s n table_eps.

Definition small_bound (V4 : Z) (tol : int) (n N : nat) : bool :=
  (V4 * ((to_Z tol + 2 + Z.of_nat n) * 128 + 2 * (Z.of_nat N * (2 + 3 * Z.of_nat n))) <=? 1844674)%Z.
Lemma small_bound_ok V4 V tol n N : small_bound V4 tol n N = true -> 0 < V -> 4 * V <= IZR V4 -> V * rule_bound tol n N <= table_eps.
Proof.
  intros H PV HV. unfold small_bound in H. apply Z.leb_le in H. apply IZR_le in H. rewrite !mult_IZR, !plus_IZR, !mult_IZR, !plus_IZR, !mult_IZR, <- !INR_IZR_INZ in H.
  unfold rule_bound, table_eps. replace (IZR wB) with (128 * IZR B56) by (rewrite <- mult_IZR; reflexivity). pose proof B56_pos as PB.
  set (t := IZR (to_Z tol)) in *. replace ((t + 2 + INR n) / IZR B56 + 2 * (INR N * (2 + 3 * INR n)) / (128 * IZR B56))
    with (((t + 2 + INR n) * 128 + 2 * (INR N * (2 + 3 * INR n))) / (128 * IZR B56)) by (field; lra).
  set (X := (t + 2 + INR n) * 128 + 2 * (INR N * (2 + 3 * INR n))) in *.
  assert (X0 : 0 <= X).
  { unfold X. pose proof (pos_INR n). pose proof (pos_INR N). pose proof (to_Z_bounded tol) as (T0 & _). apply IZR_le in T0. fold t in T0. nra. }
  assert (H2 : 4 * V * X <= 1844674) by nra.
  replace (V * (X / (128 * IZR B56))) with (4 * V * X / (512 * IZR B56)) by (field; lra).
  apply Rmult_le_reg_r with (512 * IZR B56); [lra|]. unfold Rdiv at 1. rewrite Rmult_assoc, Rinv_l, Rmult_1_r by lra.
  eapply Rle_trans; [exact H2|]. unfold B56. lra.
Qed.

Definition svol (d : nat) : R := 2 ^ d / INR (fact d).
Lemma svol_pos d : 0 < svol d.
Proof. unfold svol. apply Rdiv_lt_0_compat; [apply pow_lt; lra|apply INR_fact_lt_0]. Qed.

(** Halves of the weights of the normalised rule are [c] times the tabulated ones. *)
Lemma simplex_table V4 tol n d di sh Np A shw Nw C pts ws k kw a c q :
  check_points (inside_simplex sh d) (snext di) tol n d sh Np A shw Nw C pts ws && small_bound V4 tol n (length ws) = true ->
  (0 <= sh)%Z -> (0 <= shw)%Z -> (1 + Z.of_nat d * Np <= 2 ^ sh)%Z -> (1 + Nw <= 2 ^ shw)%Z -> 0 < c -> length A = d -> Forall (fun c => length (snd c) = d) A ->
  Forall2 (near sh k) A a -> near_coef shw (IZR C) (c / 10 ^ kw) -> to_Z di = Z.of_nat d -> (d <= 100)%nat -> 4 * svol d <= IZR V4 ->
  q = mkQuad false d (map (fun p => map (fun u => 2 * u - 1) (unode k a p)) pts) (map (fun w => 2 * svol d * (c * dec kw w)) ws) (Some (degree n)) ->
  tabulated q (Simplex d) n.
Proof.
  intros HC Hsh Hshw HNp HNw Hc LA WA NA NC Hdi Hd HV Eq. apply andb_true_iff in HC. destruct HC as (HC & HB).
  assert (NX := snext_ok d di Hd Hdi 60 (le_n 60)).
  assert (IN : forall p, In p pts -> inside_simplex sh d (map (fun c => aff c p) A) = true ->
    Forall2 (fun V u => Rabs (IZR V / IZR (maxv sh) - u) <= 1 / IZR wB) (map (fun c => aff c p) A) (unode k a p) ->
    Forall (fun u => 0 <= u) (unode k a p) /\ list_sum (unode k a p) <= 1).
  { intros p _ H1 H2. apply (inside_simplex_ok sh d (map (fun c => aff c p) A)); [easy|easy|now rewrite map_length|easy]. }
  assert (IU : forall p, In p pts -> inside_simplex sh d (map (fun c => aff c p) A) = true ->
    Forall2 (fun V u => Rabs (IZR V / IZR (maxv sh) - u) <= 1 / IZR wB) (map (fun c => aff c p) A) (unode k a p) -> Forall unitv (unode k a p)).
  { intros p H0 H1 H2. destruct (IN p H0 H1 H2). now apply simplex_units. }
  assert (QN : q_nodes q = map (fun p => map (fun u => 2 * u - 1) (unode k a p)) pts) by now subst q.
  assert (QW : q_weights q = map (fun w => 2 * svol d * w) (rws ws kw c)) by (subst q; unfold rws; rewrite map_map; reflexivity).
  assert (QD : q_dim q = d) by now subst q.
  pose proof (svol_pos d) as PV.
  pose proof (table_wf _ _ tol n d sh Np A shw Nw C pts ws k kw a c LA NA HC q (svol d) QN QW QD) as W.
  split; [exact W|]. split; [exact QD|]. split; [now subst q|]. split; [|split].
  - exact (table_weights _ _ tol n d sh Np A shw Nw C pts ws kw c Hc LA HC q (svol d) QW QD PV).
  - rewrite QN. apply Forall_forall. intros x Hx. apply in_map_iff in Hx. destruct Hx as (p & <- & Hp). cbn [in_shape].
    pose proof (near_point _ _ tol n d sh Np A shw Nw C pts ws k a Hsh HNp LA WA NA HC p Hp) as HN.
    destruct (check_parts _ _ tol n d sh Np A shw Nw C pts ws LA HC) as (H1 & _). rewrite Forall_forall in H1. destruct (H1 p Hp) as (_ & _ & HI & _).
    destruct (IN p Hp HI HN). apply simplex_node; [|easy|easy]. unfold unode. rewrite map_length. exact (lena d sh A k a LA NA).
  - pose proof (table_within _ _ tol n d sh Np A shw Nw C pts ws k kw a c (smom d) Hsh Hshw HNp HNw Hc LA WA NA NC HC
      (smom_0 d) (smom_nil d) NX IU q (svol d) QN QW QD PV (Simplex d) eq_refl) as T.
    assert (T' : integrates_within q (Simplex d) n (svol d * rule_bound tol n (length ws))).
    { apply T. intros e L. rewrite smom_rev. unfold smom, svol. pose proof (dirichlet_ref d e L) as D.
      replace (2 ^ d / INR (fact d) * (INR (fact d) * prodfact e / INR (fact (total e + d)))) with (2 ^ d * (prodfact e / INR (fact (total e + d)))); [exact D|].
      field. split; apply INR_fact_neq_0. }
    intros ts Hts. destruct (T' ts Hts) as (v & r & I & Q & B). exists v, r. split; [exact I|]. split; [exact Q|]. eapply Rle_trans; [exact B|].
    apply Rmult_le_compat_r; [|exact (small_bound_ok V4 _ tol n _ HB PV HV)].
    clear. unfold coef_sum. induction ts as [|t ts IH]; cbn [fold_right]; [lra|]. pose proof (Rabs_pos (fst t)). lra.
Qed.

Lemma cube_table V4 tol n d sh Np A shw Nw C pts ws k kw a c q :
  check_points (fun _ => true) cnext tol n d sh Np A shw Nw C pts ws && small_bound V4 tol n (length ws) = true ->
  (0 <= sh)%Z -> (0 <= shw)%Z -> (1 + Z.of_nat d * Np <= 2 ^ sh)%Z -> (1 + Nw <= 2 ^ shw)%Z -> 0 < c -> length A = d -> Forall (fun c => length (snd c) = d) A ->
  Forall2 (near sh k) A a -> near_coef shw (IZR C) (c / 10 ^ kw) -> 4 * 2 ^ d <= IZR V4 ->
  (forall p, length p = d -> Forall (fun z => (Z.abs z <= Np)%Z) p -> Forall unitv (unode k a p)) ->
  q = mkQuad false d (map (fun p => map (fun u => 2 * u - 1) (unode k a p)) pts) (map (fun w => 2 * 2 ^ d * (c * dec kw w)) ws) (Some (degree n)) ->
  tabulated q (TPShape CHypercube d (repeat (Simplex 1) d)) n.
Proof.
  intros HC Hsh Hshw HNp HNw Hc LA WA NA NC HV HU Eq. apply andb_true_iff in HC. destruct HC as (HC & HB).
  assert (NX := cnext_ok 60 (le_n 60)). destruct (check_parts _ _ tol n d sh Np A shw Nw C pts ws LA HC) as (H1 & _). rewrite Forall_forall in H1.
  assert (IU : forall p, In p pts -> true = true ->
    Forall2 (fun V u => Rabs (IZR V / IZR (maxv sh) - u) <= 1 / IZR wB) (map (fun c => aff c p) A) (unode k a p) -> Forall unitv (unode k a p)).
  { intros p Hp _ _. destruct (H1 p Hp) as (L & HN & _). now apply HU. }
  assert (QN : q_nodes q = map (fun p => map (fun u => 2 * u - 1) (unode k a p)) pts) by now subst q.
  assert (QW : q_weights q = map (fun w => 2 * 2 ^ d * w) (rws ws kw c)) by (subst q; unfold rws; rewrite map_map; reflexivity).
  assert (QD : q_dim q = d) by now subst q.
  assert (PV : 0 < 2 ^ d) by (apply pow_lt; lra).
  pose proof (table_wf _ _ tol n d sh Np A shw Nw C pts ws k kw a c LA NA HC q (2 ^ d) QN QW QD) as W.
  assert (La : length a = d) by exact (lena d sh A k a LA NA).
  split; [exact W|]. split; [exact QD|]. split; [now subst q|]. split; [|split].
  - exact (table_weights _ _ tol n d sh Np A shw Nw C pts ws kw c Hc LA HC q (2 ^ d) QW QD PV).
  - rewrite QN. apply Forall_forall. intros x Hx. apply in_map_iff in Hx. destruct Hx as (p & <- & Hp).
    destruct (H1 p Hp) as (L & HN & _). pose proof (cube_node _ (HU p L HN)) as N. unfold unode in N at 1 2. rewrite map_length, La in N. exact N.
  - pose proof (table_within _ _ tol n d sh Np A shw Nw C pts ws k kw a c cmom Hsh Hshw HNp HNw Hc LA WA NA NC HC
      cmom_0 eq_refl NX IU q (2 ^ d) QN QW QD PV (TPShape CHypercube d (repeat (Simplex 1) d)) eq_refl) as T.
    assert (T' : integrates_within q (TPShape CHypercube d (repeat (Simplex 1) d)) n (2 ^ d * rule_bound tol n (length ws))).
    { apply T. intros e L. rewrite cmom_rev. pose proof (C16_hypercube_call (mkMono e 1) d L) as D. cbn [m_factor] in D. rewrite Rmult_1_l in D.
      unfold m_hypercube_integral in D. cbn [m_exponents] in D. rewrite hyper_val in D.
      replace (cmom e) with (fold_right Rmult 1 (map (fun k0 => / (INR k0 + 1)) e)).
      2:{ unfold cmom. f_equal. apply map_ext. intros j. now rewrite Nat.add_1_r, S_INR. }
      eapply is_int_ext; [|exact D]. intros x Hx. unfold SpecPartial.valR. rewrite m_call_value; [cbn [m_factor m_exponents]; unfold half; ring|].
      cbn [m_exponents]. rewrite L. apply in_shape_TP in Hx. clear -Hx. revert x Hx. induction d as [|d IH]; intros x Hx; cbn [repeat in_shapes] in Hx; [lia|].
      destruct Hx as (p & r & -> & Hp & Hr). apply IH in Hr. cbn [in_shape] in Hp. destruct Hp as (Hp & _). rewrite app_length. lia. }
    intros ts Hts. destruct (T' ts Hts) as (v & r & I & Q & B). exists v, r. split; [exact I|]. split; [exact Q|]. eapply Rle_trans; [exact B|].
    apply Rmult_le_compat_r; [|exact (small_bound_ok V4 _ tol n _ HB PV HV)].
    clear. unfold coef_sum. induction ts as [|t ts IH]; cbn [fold_right]; [lra|]. pose proof (Rabs_pos (fst t)). lra.
Qed.
