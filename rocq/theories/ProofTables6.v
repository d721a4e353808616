(** * The other shipped tables pass the check *)
From Coquelicot Require Import Coquelicot.
From Coq Require Import List Arith Bool ZArith Reals Lra Lia Uint63 Factorial.
From Verif Require Import Py ModelShapes ModelLinAlg ModelQuad ModelTools ModelQuadSpace ModelTables ModelDataWV ModelDataJS ModelDataVR.
From Verif Require Import RSum EnumFacts SpecIndex SpecGeometry SpecPoly SpecIntegral ProofQuad PropsQuad PropsTools
  ProofFixed ProofFixed2 ProofTables ProofTables2 ProofTables3 ProofTables4 ProofTables5.
Import ListNotations.
Local Open Scope R_scope.
Local Notation Rsqrt := R_sqrt.sqrt.

Definition cols (points : list (list Z)) : list (list Z) := columns 0%Z (filter (fun r => negb (length r =? 0)%nat) points).
Lemma read_cols kp kw p w n : read_row kp kw (p, w, n) = mkRow (map (map (dec kp)) (cols p)) (map (dec kw) w) n.
Proof. unfold read_row. now rewrite columns_dec. Qed.
Definition dec_row : Type := list (list Z) * list Z * nat.

(** ** Vioreanu-Rokhlin *)
Definition vr_A2 : list (Z * list Z) := Eval vm_compute in eqc 2 121 (Z.of_nat 35).
Definition vr_A3 : list (Z * list Z) := Eval vm_compute in eqc 3 118 (Z.of_nat 34).
Definition vr_A (d : nat) := match d with 2%nat => vr_A2 | _ => vr_A3 end.
Definition vr_k (d : nat) : nat := match d with 2%nat => 35 | _ => 34 end.
Definition vr_sh (d : nat) : Z := match d with 2%nat => 121 | _ => 118 end.
Definition zsumw (ws : list Z) : Z := fold_right Z.add 0%Z ws.
Definition vr_check (d : nat) (r : dec_row) : bool :=
  let '(p, w, n) := r in
  check_points (inside_simplex (vr_sh d) d) (snext (of_Z (Z.of_nat d))) 200 n d (vr_sh d) (2 * Z10 (Z.of_nat (vr_k d))) (vr_A d) 116 (8 * Z10 34)
    (coefQ 116 1 (2 * zsumw w)) (cols p) w
  && small_bound (vol4 d) 200 n (length w) && (0 <? zsumw w)%Z.
Lemma vr_checked2 : forallb (fun kv => vr_check 2 (snd kv)) vr_triangle_data = true.
Proof. vm_cast_no_check (eq_refl true). Qed.
Lemma vr_checked3 : forallb (fun kv => vr_check 3 (snd kv)) vr_tetrahedron_data = true.
Proof. vm_cast_no_check (eq_refl true). Qed.
Lemma vr_A_eq d : d = 2%nat \/ d = 3%nat -> vr_A d = eqc d (vr_sh d) (Z.of_nat (vr_k d)).
Proof. intros [->| ->]; vm_compute; reflexivity. Qed.
Lemma dec_sum k ws : fold_right Rplus 0 (map (dec k) ws) = IZR (zsumw ws) / 10 ^ k.
Proof.
  pose proof (pow10_pos k). induction ws as [|w ws IH]; cbn [map fold_right zsumw].
  - unfold Rdiv. now rewrite Rmult_0_l.
  - rewrite IH. unfold zsumw. rewrite plus_IZR. unfold dec. field. lra.
Qed.
Lemma vr_row d r : d = 2%nat \/ d = 3%nat -> vr_check d r = true ->
  exists q, (let* e2u := equilateral_to_unit_map d in
             let* nodes := mapM (am_call e2u) (tr_points (read_row (vr_k d) 34 r)) in
             let wts := tr_weights (read_row (vr_k d) 34 r) in
             let wts := map (fun w => w * (svol d / fold_right Rplus 0 wts)) wts in
             Ok (mkQuad false d nodes wts (Some (degree (tr_degree (read_row (vr_k d) 34 r)))))) = Ok q
    /\ tabulated q (Simplex d) (snd r) /\ length (q_weights q) = length (snd (fst r)).
Proof.
  intros Hd HC. destruct r as ((p, w), n). unfold vr_check in HC. apply andb_true_iff in HC. destruct HC as (HC & HS).
  pose proof HC as HC'. apply andb_true_iff in HC'. destruct HC' as (HP & _). rewrite read_cols. cbn [tr_points tr_weights tr_degree fst snd].
  destruct (e2u_points d (vr_k d) (cols p) Hd (check_lengths _ _ _ _ _ _ _ _ _ _ _ _ _ HP)) as (m & E & EM & _). rewrite E. cbn [bind]. rewrite EM. cbn [bind].
  eexists. split; [reflexivity|]. split; [|cbn [q_weights]; now rewrite !map_length].
  apply Z.ltb_lt in HS. rewrite (vr_A_eq d Hd) in HC. destruct (eqc_shape d (vr_sh d) (Z.of_nat (vr_k d)) Hd) as (LA & WA).
  assert (PS : 0 < IZR (zsumw w)) by now apply IZR_lt.
  eapply (simplex_table (vol4 d) 200 n d (of_Z (Z.of_nat d)) (vr_sh d) _ _ 116 _ _ _ _ (vr_k d) 34 (ae d) (10 ^ 34 / (2 * IZR (zsumw w))) _ HC); clear HC HP EM.
  - destruct Hd as [->| ->]; cbn [vr_sh]; lia.
  - lia.
  - destruct Hd as [->| ->]; vm_compute; discriminate.
  - vm_compute; discriminate.
  - apply Rdiv_lt_0_compat; [apply pow10_pos|lra].
  - exact LA.
  - exact WA.
  - apply eqc_near. destruct Hd as [->| ->]; cbn [vr_sh]; lia.
  - replace (10 ^ 34 / (2 * IZR (zsumw w)) / 10 ^ 34) with (1 / IZR (2 * zsumw w)).
    + apply near_Q; lia.
    + rewrite mult_IZR. pose proof (pow10_pos 34) as P. set (X := 10 ^ 34) in *. field. lra.
  - now apply of_nat_Z.
  - destruct Hd; lia.
  - now apply vol4_ok.
  - f_equal. rewrite map_map. apply map_ext. intros z. rewrite dec_sum. pose proof (pow10_pos 34) as P. set (X := 10 ^ 34) in *. field. lra.
Qed.

(** ** Jaskowiec-Sukumar *)
Definition js_a : list (R * list R) := [(0, [1; 0; 0]); (0, [0; 1; 0]); (0, [0; 0; 1])].
Definition js_A' : list (Z * list Z) := let c := coefQ 88 1 (1 * Z10 (Z.of_nat 25)) in [(0, [c; 0; 0]); (0, [0; c; 0]); (0, [0; 0; c])]%Z.
Definition js_A : list (Z * list Z) := Eval vm_compute in js_A'.
Definition js_C : Z := Eval vm_compute in coefQ 71 1 (2 * Z10 (Z.of_nat 21)).
Definition js_check (r : dec_row) : bool :=
  let '(p, w, n) := r in
  check_points (inside_simplex 88 3) (snext 3) 200 n 3 88 (Z10 25) js_A 71 (Z10 21) js_C (cols p) w && small_bound 6 200 n (length w).
Lemma js_checked : forallb (fun kv => js_check (snd kv)) js_tet_data = true.
Proof. vm_cast_no_check (eq_refl true). Qed.
Lemma js_near : Forall2 (near 88 25) js_A js_a.
Proof.
  replace js_A with js_A' by (vm_compute; reflexivity). unfold js_A', js_a.
  repeat first [apply Forall2_nil | apply Forall2_cons | split]; cbn [fst snd]; first [apply near_Q10; [easy|easy|lra]|apply near_0'; easy|apply near_0; easy].
Qed.
Lemma js_row r : js_check r = true ->
  exists q, q = mkQuad false 3 (map (map (fun t => 2 * t - 1)) (tr_points (read_row 25 21 r))) (map (fun w => 4 / 3 * w) (tr_weights (read_row 25 21 r)))
                  (Some (degree (tr_degree (read_row 25 21 r))))
    /\ tabulated q (Simplex 3) (snd r) /\ length (q_weights q) = length (snd (fst r)).
Proof.
  intros HC. destruct r as ((p, w), n). unfold js_check in HC. rewrite read_cols. cbn [tr_points tr_weights tr_degree fst snd].
  pose proof HC as HC'. apply andb_true_iff in HC'. destruct HC' as (HP & _). apply check_lengths in HP.
  eexists. split; [reflexivity|]. split; [|cbn [q_weights]; now rewrite !map_length].
  eapply (simplex_table 6 200 n 3 3 88 _ _ 71 _ _ _ _ 25 21 js_a (1 / 2) _ HC); clear HC.
  - lia.
  - lia.
  - vm_compute; discriminate.
  - vm_compute; discriminate.
  - lra.
  - reflexivity.
  - repeat constructor.
  - exact js_near.
  - replace js_C with (coefQ 71 1 (2 * Z10 (Z.of_nat 21))) by (vm_compute; reflexivity). apply near_Q10; [easy|easy|lra].
  - reflexivity.
  - lia.
  - rewrite svol_3. lra.
  - f_equal.
    + rewrite map_map. apply map_ext_in. intros x Hx. rewrite Forall_forall in HP. specialize (HP x Hx). destruct x as [|x1 [|x2 [|x3 [|]]]]; try discriminate.
      unfold unode, js_a, raff. cbn -[IZR dec]. f_equal; [ring|]. f_equal; [ring|]. f_equal. ring.
    + rewrite map_map. apply map_ext. intros z. rewrite svol_3. field.
Qed.

(** ** Witherden-Vincent *)
Definition wv_a (d : nat) : list (R * list R) :=
  match d with 2%nat => [(1 / 2, [1 / 2; 0]); (1 / 2, [0; 1 / 2])] | _ => [(1 / 2, [1 / 2; 0; 0]); (1 / 2, [0; 1 / 2; 0]); (1 / 2, [0; 0; 1 / 2])] end.
Definition wv_A' (d : nat) : list (Z * list Z) :=
  let h := coefQ 59 1 2 in let c := coefQ 59 1 (2 * Z10 (Z.of_nat 17)) in
  match d with 2%nat => [(h, [c; 0]); (h, [0; c])]%Z | _ => [(h, [c; 0; 0]); (h, [0; c; 0]); (h, [0; 0; c])]%Z end.
Definition wv_A2 : list (Z * list Z) := Eval vm_compute in wv_A' 2.
Definition wv_A3 : list (Z * list Z) := Eval vm_compute in wv_A' 3.
Definition wv_A (d : nat) := match d with 2%nat => wv_A2 | _ => wv_A3 end.
Definition wv_kw (d : nat) : nat := match d with 2%nat => 19 | _ => 18 end.
Definition wv_shw (d : nat) : Z := match d with 2%nat => 66 | _ => 63 end.
Definition wv_Nw (d : nat) : Z := match d with 2%nat => 4 * Z10 19 | _ => 8 * Z10 18 end.
Definition wv_den (d : nat) : Z := match d with 2%nat => 8 | _ => 16 end.
Definition wv_C (d : nat) : Z := coefQ (wv_shw d) 1 (wv_den d * Z10 (Z.of_nat (wv_kw d))).
Definition wv_V4 (d : nat) : Z := match d with 2%nat => 16 | _ => 32 end.
Definition wv_check (d : nat) (r : dec_row) : bool :=
  let '(p, w, n) := r in
  check_points (fun _ => true) cnext 200 n d 59 (Z10 (Z.of_nat 17)) (wv_A d) (wv_shw d) (wv_Nw d) (wv_C d) (cols p) w && small_bound (wv_V4 d) 200 n (length w).
Lemma wv_checked2 : forallb (fun kv => wv_check 2 (snd kv)) wv_quad_data = true.
Proof. vm_cast_no_check (eq_refl true). Qed.
Lemma wv_checked3 : forallb (fun kv => wv_check 3 (snd kv)) wv_hex_data = true.
Proof. vm_cast_no_check (eq_refl true). Qed.
Lemma wv_near d : d = 2%nat \/ d = 3%nat -> Forall2 (near 59 17) (wv_A d) (wv_a d).
Proof.
  intros H. replace (wv_A d) with (wv_A' d) by (destruct H as [->| ->]; vm_compute; reflexivity). destruct H as [->| ->]; cbn [wv_A' wv_a];
  repeat first [apply Forall2_nil | apply Forall2_cons | split]; cbn [fst snd]; first [apply (near_Q 59 1 2); easy|apply near_Q10; [easy|easy|lra]|apply near_0'; easy].
Qed.
Lemma wv_unit z : (Z.abs z <= Z10 (Z.of_nat 17))%Z -> unitv (1 / 2 + 1 / 2 * dec 17 z).
Proof.
  intros H. assert (H' : (- Z10 (Z.of_nat 17) <= z <= Z10 (Z.of_nat 17))%Z) by lia. destruct H' as (H1 & H2). apply IZR_le in H1, H2. rewrite opp_IZR in H1. rewrite Z10_R in H1, H2.
  unfold dec. pose proof (pow10_pos 17) as P. set (X := 10 ^ 17) in *. assert (A1 : -1 <= IZR z / X).
  { apply Rmult_le_reg_r with X; [lra|]. unfold Rdiv. rewrite Rmult_assoc, Rinv_l; lra. }
  assert (A2 : IZR z / X <= 1). { apply Rmult_le_reg_r with X; [lra|]. unfold Rdiv. rewrite Rmult_assoc, Rinv_l; lra. }
  unfold unitv. lra.
Qed.
Lemma wv_row d r : d = 2%nat \/ d = 3%nat -> wv_check d r = true ->
  exists q, q = mkQuad false d (tr_points (read_row 17 (wv_kw d) r)) (tr_weights (read_row 17 (wv_kw d) r)) (Some (degree (tr_degree (read_row 17 (wv_kw d) r))))
    /\ tabulated q (TPShape CHypercube d (repeat (Simplex 1) d)) (snd r) /\ length (q_weights q) = length (snd (fst r)).
Proof.
  intros Hd HC. destruct r as ((p, w), n). unfold wv_check in HC. rewrite read_cols. cbn [tr_points tr_weights tr_degree fst snd].
  pose proof HC as HC'. apply andb_true_iff in HC'. destruct HC' as (HP & _). apply check_lengths in HP.
  eexists. split; [reflexivity|]. split; [|cbn [q_weights]; now rewrite !map_length].
  eapply (cube_table (wv_V4 d) 200 n d 59 _ _ (wv_shw d) _ _ _ _ 17 (wv_kw d) (wv_a d) (1 / IZR (wv_den d)) _ HC); clear HC.
  - lia.
  - destruct Hd as [->| ->]; cbn [wv_shw]; lia.
  - destruct Hd as [->| ->]; vm_compute; discriminate.
  - destruct Hd as [->| ->]; vm_compute; discriminate.
  - destruct Hd as [->| ->]; cbn [wv_den]; lra.
  - destruct Hd as [->| ->]; reflexivity.
  - destruct Hd as [->| ->]; repeat constructor.
  - now apply wv_near.
  - unfold wv_C. apply near_Q10; [| |reflexivity]; destruct Hd as [->| ->]; cbn [wv_shw wv_den]; lia.
  - destruct Hd as [->| ->]; cbn [wv_V4]; lra.
  - intros x L HX. destruct Hd as [->| ->].
    + destruct x as [|x1 [|x2 [|]]]; try discriminate. pose proof (wv_unit x1 (Forall_inv HX)). pose proof (wv_unit x2 (Forall_inv (Forall_inv_tail HX))).
      unfold unode, wv_a, raff. cbn -[IZR dec]. unfold unitv in *. repeat apply Forall_cons; try apply Forall_nil; lra.
    + destruct x as [|x1 [|x2 [|x3 [|]]]]; try discriminate. pose proof (wv_unit x1 (Forall_inv HX)). pose proof (wv_unit x2 (Forall_inv (Forall_inv_tail HX))).
      pose proof (wv_unit x3 (Forall_inv (Forall_inv_tail (Forall_inv_tail HX)))).
      unfold unode, wv_a, raff. cbn -[IZR dec]. unfold unitv in *. repeat apply Forall_cons; try apply Forall_nil; lra.
  - f_equal.
    + apply map_ext_in. intros x Hx. rewrite Forall_forall in HP. specialize (HP x Hx). destruct Hd as [->| ->].
      * destruct x as [|x1 [|x2 [|]]]; try discriminate. unfold unode, wv_a, raff. cbn -[IZR dec]. f_equal; [field|]. f_equal. field.
      * destruct x as [|x1 [|x2 [|x3 [|]]]]; try discriminate. unfold unode, wv_a, raff. cbn -[IZR dec]. f_equal; [field|]. f_equal; [field|]. f_equal. field.
    + apply map_ext. intros z. destruct Hd as [->| ->]; cbn [wv_den wv_kw]; field.
Qed.
