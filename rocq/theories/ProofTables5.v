(** * The shipped tables pass the check *)
From Coquelicot Require Import Coquelicot.
From Coq Require Import List Arith Bool ZArith Reals Lra Lia Uint63 Factorial.
From Verif Require Import Py ModelShapes ModelLinAlg ModelQuad ModelTools ModelQuadSpace ModelTables ModelDataWV ModelDataJS ModelDataVR ModelDataXG.
From Verif Require Import RSum EnumFacts SpecIndex SpecGeometry SpecPoly SpecIntegral ProofQuad PropsQuad PropsTools
  ProofFixed ProofFixed2 ProofTables ProofTables2 ProofTables3 ProofTables4.
Import ListNotations.
Local Open Scope R_scope.
Local Notation Rsqrt := R_sqrt.sqrt.

Lemma dec_0 k : dec k 0 = 0.
Proof. unfold dec, Rdiv. ring. Qed.
Lemma columns_dec k rows : columns 0 (map (map (dec k)) rows) = map (map (dec k)) (columns 0%Z rows).
Proof.
  unfold columns. rewrite map_map. replace (length (hd [] (map (map (dec k)) rows))) with (length (hd [] rows)).
  2:{ destruct rows; cbn [map hd]; [reflexivity|now rewrite map_length]. }
  apply map_ext. intros i. rewrite !map_map. apply map_ext. intros r. rewrite <- (dec_0 k) at 1. apply map_nth.
Qed.
Lemma assoc_In {X} key (t : list (nat * X)) v : assoc key t = Some v -> In (key, v) t.
Proof.
  induction t as [|(k, w) t IH]; cbn [assoc]; [discriminate|]. destruct (Nat.eqb_spec k key) as [->|_]; intros E.
  - assert (w = v) as -> by congruence. now left.
  - right. now apply IH.
Qed.
Lemma assoc_keys {X} key (t : list (nat * X)) : (exists v, assoc key t = Some v) <-> In key (map fst t).
Proof.
  induction t as [|(k, w) t IH]; cbn [assoc map fst In].
  - split; [intros (v & E); discriminate|tauto].
  - destruct (Nat.eqb_spec k key) as [->|N]; [split; [now left|eauto]|]. rewrite IH. intuition congruence.
Qed.
Lemma assoc_none {X} key (t : list (nat * X)) : ~ In key (map fst t) -> assoc key t = None.
Proof. intros H. destruct (assoc key t) eqn:E; [|reflexivity]. exfalso. apply H, assoc_keys. eauto. Qed.

(** ** The map from the equilateral simplex *)
Lemma e2u_call2 k p : length p = 2%nat -> exists m, equilateral_to_unit_map 2 = Ok m
  /\ am_call m (map (dec k) p) = Ok (map (fun u => 2 * u - 1) (unode k a2 p)) /\ am_jacobian m = Ok (2 / Rsqrt 3).
Proof.
  intros L. destruct C15_jacobians as (m1 & m & m3 & _ & E & _ & _ & J & _). exists m. split; [exact E|]. split; [|exact J].
  destruct p as [|x [|y [|]]]; try discriminate. clear J. unfold equilateral_to_unit_map in E. match type of E with Ok ?r = _ => assert (m = r) as -> by congruence end. clear E.
  destruct sqrt3_facts as (P & _).
  unfold am_call, unode, a2, raff. cbn -[IZR dec]. f_equal. f_equal; [field; lra|]. f_equal. field. lra.
Qed.
Lemma e2u_call3 k p : length p = 3%nat -> exists m, equilateral_to_unit_map 3 = Ok m
  /\ am_call m (map (dec k) p) = Ok (map (fun u => 2 * u - 1) (unode k a3 p)) /\ am_jacobian m = Ok (Rsqrt 2).
Proof.
  intros L. destruct C15_jacobians as (m1 & m2 & m & _ & _ & E & _ & _ & J). exists m. split; [exact E|]. split; [|exact J].
  destruct p as [|x [|y [|z [|]]]]; try discriminate. clear J. unfold equilateral_to_unit_map in E. match type of E with Ok ?r = _ => assert (m = r) as -> by congruence end. clear E.
  destruct sqrt3_facts as (P & _). destruct sqrt6_facts as (P6 & _).
  unfold am_call, unode, a3, raff. cbn -[IZR dec]. f_equal. f_equal; [field; lra|]. f_equal; [field; lra|]. f_equal. field.
Qed.
Definition ae (d : nat) : list (R * list R) := match d with 2%nat => a2 | _ => a3 end.
Definition je (d : nat) : R := match d with 2%nat => 2 / Rsqrt 3 | _ => Rsqrt 2 end.
Definition eqc (d : nat) (sh k : Z) : list (Z * list Z) := match d with 2%nat => equi2 sh k | _ => equi3 sh k end.
Lemma e2u_points d k pts : d = 2%nat \/ d = 3%nat -> Forall (fun p => length p = d) pts -> exists m, equilateral_to_unit_map d = Ok m
  /\ mapM (am_call m) (map (map (dec k)) pts) = Ok (map (fun p => map (fun u => 2 * u - 1) (unode k (ae d) p)) pts) /\ am_jacobian m = Ok (je d).
Proof.
  intros Hd HL. assert (H : exists m, equilateral_to_unit_map d = Ok m /\ am_jacobian m = Ok (je d)
    /\ forall p, length p = d -> am_call m (map (dec k) p) = Ok (map (fun u => 2 * u - 1) (unode k (ae d) p))).
  { destruct Hd as [->| ->]; cbn [ae je].
    - destruct (e2u_call2 k [0; 0]%Z eq_refl) as (m & E & _ & J). exists m. split; [exact E|]. split; [exact J|]. intros p L.
      destruct (e2u_call2 k p L) as (m' & E' & C & _). assert (m' = m) as -> by congruence. exact C.
    - destruct (e2u_call3 k [0; 0; 0]%Z eq_refl) as (m & E & _ & J). exists m. split; [exact E|]. split; [exact J|]. intros p L.
      destruct (e2u_call3 k p L) as (m' & E' & C & _). assert (m' = m) as -> by congruence. exact C. }
  destruct H as (m & E & J & C). exists m. split; [exact E|]. split; [|exact J].
  induction HL as [|p pts L _ IH]; [reflexivity|]. cbn [map mapM]. rewrite (C p L). cbn [bind]. now rewrite IH.
Qed.
Lemma eqc_near d sh k : (0 <= sh)%Z -> Forall2 (near sh k) (eqc d sh (Z.of_nat k)) (ae d).
Proof. intros H. destruct d as [|[|[|d]]]; cbn [eqc ae]; first [now apply equi2_near|now apply equi3_near]. Qed.
Lemma svol_2 : svol 2 = 2.
Proof. unfold svol. cbn. field. Qed.
Lemma svol_3 : svol 3 = 4 / 3.
Proof. unfold svol. cbn. field. Qed.

(** ** Xiao-Gimbutas *)
Definition xg_A2 : list (Z * list Z) := Eval vm_compute in eqc 2 111 (Z.of_nat 32).
Definition xg_A3 : list (Z * list Z) := Eval vm_compute in eqc 3 111 (Z.of_nat 32).
Definition xg_C2 : Z := Eval vm_compute in coefS 65 1 (12 * Z10 (2 * Z.of_nat 19)).
Definition xg_C3 : Z := Eval vm_compute in coefS 65 9 (32 * Z10 (2 * Z.of_nat 19)).
Definition xg_A (d : nat) := match d with 2%nat => xg_A2 | _ => xg_A3 end.
Definition xg_C (d : nat) := match d with 2%nat => xg_C2 | _ => xg_C3 end.
Definition vol4 (d : nat) : Z := match d with 2%nat => 8 | _ => 6 end.
Definition xg_check (d : nat) (kv : nat * (list (list Z) * list Z)) : bool :=
  check_points (inside_simplex 111 d) (snext (of_Z (Z.of_nat d))) 200 (fst kv) d 111 (2 * Z10 32) (xg_A d) 65 (2 * Z10 19) (xg_C d) (fst (snd kv)) (snd (snd kv))
  && small_bound (vol4 d) 200 (fst kv) (length (snd (snd kv))).
Lemma xg_checked2 : forallb (xg_check 2) xg_triangle = true.
Proof. vm_cast_no_check (eq_refl true). Qed.
Lemma xg_checked3 : forallb (xg_check 3) xg_tetrahedron = true.
Proof. vm_cast_no_check (eq_refl true). Qed.
Lemma xg_A_eq d : d = 2%nat \/ d = 3%nat -> xg_A d = eqc d 111 (Z.of_nat 32).
Proof. intros [->| ->]; vm_compute; reflexivity. Qed.
Definition xg_c (d : nat) : R := match d with 2%nat => / (2 * Rsqrt 3) | _ => 3 * Rsqrt 2 / 8 end.
Lemma xg_c_pos d : 0 < xg_c d.
Proof.
  destruct sqrt3_facts as (P & _). destruct sqrt2_facts as (P2 & _).
  destruct d as [|[|[|d]]]; cbn [xg_c]; first [apply Rinv_0_lt_compat; lra|lra].
Qed.
Lemma xg_C_near d : d = 2%nat \/ d = 3%nat -> near_coef 65 (IZR (xg_C d)) (xg_c d / 10 ^ 19).
Proof.
  intros [->| ->]; cbn [xg_C xg_c].
  - destruct sqrt3_facts as (P & E3). replace xg_C2 with (coefS 65 1 (12 * Z10 (2 * Z.of_nat 19))) by (vm_compute; reflexivity).
    apply near_inv_sqrt; [easy|easy|lra|]. replace (2 * Rsqrt 3 * (2 * Rsqrt 3)) with (4 * (Rsqrt 3 * Rsqrt 3)) by ring. rewrite E3. ring.
  - destruct sqrt2_facts as (P & E2). replace xg_C3 with (coefS 65 9 (32 * Z10 (2 * Z.of_nat 19))) by (vm_compute; reflexivity).
    pose proof (pow10_pos 19) as P10. pose proof (Z10_pos (2 * Z.of_nat 19) ltac:(lia)). apply near_S'; [easy|easy|easy| |].
    + left. apply Rdiv_lt_0_compat; lra.
    + rewrite mult_IZR, Z10_R2. set (X := 10 ^ 19) in *. replace (3 * Rsqrt 2 / 8 / X * (3 * Rsqrt 2 / 8 / X)) with (9 * (Rsqrt 2 * Rsqrt 2) / (64 * (X * X))) by (field; lra).
      rewrite E2. field. lra.
Qed.
Lemma vol4_ok d : d = 2%nat \/ d = 3%nat -> 4 * svol d <= IZR (vol4 d).
Proof. intros [->| ->]; cbn [vol4]; [rewrite svol_2|rewrite svol_3]; lra. Qed.
Lemma xg_jac d : d = 2%nat \/ d = 3%nat -> je d = 2 * svol d * xg_c d.
Proof.
  destruct sqrt3_facts as (P & _). intros [->| ->]; cbn [je xg_c]; [rewrite svol_2|rewrite svol_3]; field. lra.
Qed.
Lemma check_lengths inside next tol n d sh Np A shw Nw C pts ws : check_points inside next tol n d sh Np A shw Nw C pts ws = true -> Forall (fun p => length p = d) pts.
Proof.
  unfold check_points. cbv zeta. intros H. apply andb_true_iff in H. destruct H as (H & _).
  apply andb_true_iff in H. destruct H as (H & _). apply andb_true_iff in H. destruct H as (H1 & _). rewrite forallb_combine_map in H1.
  apply Forall_forall. intros p Hp. rewrite forallb_forall in H1. specialize (H1 p Hp). cbn [fst snd] in H1. unfold point_ok in H1.
  apply andb_true_iff in H1. destruct H1 as (H1 & _). apply andb_true_iff in H1. destruct H1 as (H1 & _). apply andb_true_iff in H1. destruct H1 as (Hl & _).
  now apply Nat.eqb_eq.
Qed.
Lemma eqc_shape d sh k : d = 2%nat \/ d = 3%nat -> length (eqc d sh k) = d /\ Forall (fun c => length (snd c) = d) (eqc d sh k).
Proof. intros [->| ->]; cbn [eqc]; split; try reflexivity; repeat constructor. Qed.
Lemma of_nat_Z d : d = 2%nat \/ d = 3%nat -> to_Z (of_Z (Z.of_nat d)) = Z.of_nat d.
Proof. intros [->| ->]; reflexivity. Qed.

Lemma xg_row d order pw : d = 2%nat \/ d = 3%nat -> xg_check d (order, pw) = true ->
  exists q, (let* e2u := equilateral_to_unit_map d in
             let* nodes := mapM (am_call e2u) (map (map (dec 32)) (fst pw)) in
             let* jac := am_jacobian e2u in
             Ok (mkQuad false d nodes (map (fun w => w * jac) (map (dec 19) (snd pw))) (Some (degree order)))) = Ok q
    /\ tabulated q (Simplex d) order /\ length (q_weights q) = length (snd pw).
Proof.
  intros Hd HC. unfold xg_check in HC. cbn [fst snd] in HC. pose proof HC as HC'. apply andb_true_iff in HC'. destruct HC' as (HP & _).
  destruct (e2u_points d 32 (fst pw) Hd (check_lengths _ _ _ _ _ _ _ _ _ _ _ _ _ HP)) as (m & E & EM & EJ). rewrite E. cbn [bind]. rewrite EM. cbn [bind]. rewrite EJ. cbn [bind].
  eexists. split; [reflexivity|]. split; [|cbn [q_weights]; now rewrite !map_length].
  rewrite (xg_A_eq d Hd) in HC. destruct (eqc_shape d 111 (Z.of_nat 32) Hd) as (LA & WA).
  eapply (simplex_table (vol4 d) 200 order d (of_Z (Z.of_nat d)) 111 _ _ 65 _ _ _ _ 32 19 (ae d) (xg_c d) _ HC); clear HC HP EM.
  - lia.
  - lia.
  - destruct Hd as [->| ->]; vm_compute; discriminate.
  - vm_compute; discriminate.
  - apply xg_c_pos.
  - exact LA.
  - exact WA.
  - now apply eqc_near.
  - now apply xg_C_near.
  - now apply of_nat_Z.
  - destruct Hd; lia.
  - now apply vol4_ok.
  - f_equal. rewrite map_map. apply map_ext. intros w. rewrite (xg_jac d Hd). ring.
Qed.
