(** * C71, C72: rules read from tables *)
From Coquelicot Require Import Coquelicot.
From Coq Require Import List Arith Bool ZArith Reals Lra Lia Uint63 Factorial.
From Verif Require Import Py ModelShapes ModelLinAlg ModelQuad ModelTools ModelQuadSpace ModelTables ModelDataWV ModelDataJS ModelDataVR ModelDataXG.
From Verif Require Import RSum EnumFacts SpecIndex SpecGeometry SpecPoly SpecIntegral ProofDirichlet ProofQuad PropsQuad PropsTools
  ProofFixed ProofFixed2 ProofTables ProofTables2 ProofTables3 ProofTables4 ProofTables5 ProofTables6.
Import ListNotations.
Local Open Scope R_scope.

(** ** C71: the classes, for any tables *)
(** Refused with RuleUnavailable exactly for other dimensions and missing orders;
    no other exception, provided that the points of the table have [dims] coordinates. *)
Theorem C71_refused_witherden_vincent quad_data hex_data order dims :
  (exists q, wv_quad quad_data hex_data order dims = Ok q)
  \/ wv_quad quad_data hex_data order dims = Err RuleUnavailable.
Proof.
  unfold wv_quad. destruct dims as [|[|[|[|d]]]]; cbn [bind]; try (now right).
  - destruct (quad_data order); eauto.
  - destruct (hex_data order); eauto.
Qed.
Theorem C71_available_witherden_vincent quad_data hex_data order dims :
  (exists q, wv_quad quad_data hex_data order dims = Ok q)
  <-> (dims = 2%nat /\ quad_data order <> None) \/ (dims = 3%nat /\ hex_data order <> None).
Proof.
  unfold wv_quad. destruct dims as [|[|[|[|d]]]]; cbn [bind];
    try (split; [intros (q & E); discriminate|intros [(E & _)|(E & _)]; discriminate]).
  - destruct (quad_data order) as [r|]; split; try (intros _; left; split; [reflexivity|discriminate]); eauto.
    + intros (q & E); discriminate.
    + intros [(_ & N)|(E & _)]; [now elim N|discriminate].
  - destruct (hex_data order) as [r|]; split; try (intros _; right; split; [reflexivity|discriminate]); eauto.
    + intros (q & E); discriminate.
    + intros [(E & _)|(_ & N)]; [discriminate|now elim N].
Qed.
Theorem C71_refused_jaskowiec_sukumar tet_data order dims :
  (exists q, js_quad tet_data order dims = Ok q) \/ js_quad tet_data order dims = Err RuleUnavailable.
Proof.
  unfold js_quad. destruct (dims =? 3)%nat; cbn [bind]; [|now right]. destruct (tet_data order); eauto.
Qed.
Theorem C71_available_jaskowiec_sukumar tet_data order dims :
  (exists q, js_quad tet_data order dims = Ok q) <-> dims = 3%nat /\ tet_data order <> None.
Proof.
  unfold js_quad. destruct (Nat.eqb_spec dims 3) as [->|N]; cbn [bind].
  - destruct (tet_data order); split; eauto.
    + intros _. split; [reflexivity|discriminate].
    + intros (q & E); discriminate.
    + intros (_ & E). now elim E.
  - split; [intros (q & E); discriminate|intros (E & _); contradiction].
Qed.

(** The sum of the values of the monomial [e] at the points with coordinates [xs] in
    [-1,1], in the coordinates (x + 1) / 2, times the weights. *)
Definition moment (xs : list (list R)) (ws : list R) (e : list nat) : R := rsum (fun k => nth k ws 0 * monoval e (half (nth k xs []))) (length ws).
(** The weights of a row are close to averaging the polynomials of degree at most [n]
    over the reference simplex: each moment is within [eps] of the integral over the
    volume 2^d / d!, the weights taken relative to [W]. *)
Definition averages (d : nat) (xs : list (list R)) (ws : list R) (W : R) (n : nat) (eps : R) : Prop :=
  forall e v, length e = d -> (total e <= n)%nat -> is_int (Simplex d) (fun x => monoval e (half x)) v ->
  Rabs (moment xs ws e / W - v / (2 ^ d / INR (fact d))) <= eps.
Lemma averages_within d xs ws W n eps q : averages d xs ws W n eps ->
  q_dim q = d -> q_nodes q = xs -> q_weights q = map (fun w => w * (2 ^ d / INR (fact d) / W)) ws -> W <> 0 -> Forall (fun x => length x = d) xs -> length ws = length xs ->
  wf_quad q /\ integrates_within q (Simplex d) n (2 ^ d / INR (fact d) * eps).
Proof.
  intros HA D N Hw HW LX LW. assert (WF : wf_quad q) by (split; [now rewrite N, D|rewrite Hw, N, map_length; exact LW]).
  split; [exact WF|]. assert (PV : 0 < 2 ^ d / INR (fact d)) by (apply Rdiv_lt_0_compat; [apply pow_lt; lra|apply INR_fact_lt_0]).
  apply (within_of_moments q (Simplex d) n _ (fun e => 2 ^ d * (prodfact e / INR (fact (total e + d)))) WF); cbn [shape_dim].
  - intros e L. exact (dirichlet_ref d e L).
  - intros e L T. pose proof (HA e _ L T (dirichlet_ref d e L)) as B. set (V := 2 ^ d / INR (fact d)) in *. set (v := 2 ^ d * (prodfact e / INR (fact (total e + d)))) in *.
    replace (rule q (fun x => monoval e (half x))) with (V * (moment xs ws e / W)).
    + replace (V * (moment xs ws e / W) - v) with (V * (moment xs ws e / W - v / V)) by (field; split; lra).
      rewrite Rabs_mult, (Rabs_pos_eq V) by lra. apply Rmult_le_compat_l; [lra|exact B].
    + rewrite (rule_rsum q _ WF), N, <- LW. unfold moment. rewrite Hw. replace (V * (rsum (fun k => nth k ws 0 * monoval e (half (nth k xs []))) (length ws) / W))
        with ((V / W) * rsum (fun k => nth k ws 0 * monoval e (half (nth k xs []))) (length ws)) by (field; lra).
      rewrite <- rsum_scal. apply rsum_ext. intros k Hk.
      rewrite (nth_indep (map (fun w => w * (V / W)) ws) 0 (0 * (V / W))) by (now rewrite map_length). rewrite (map_nth (fun w => w * (V / W))). unfold half. ring.
Qed.
(** JaskowiecSukumarQuadrature: a row given in the coordinates of the unit simplex that
    averages polynomials of degree at most [n] up to [eps] makes a rule on the reference
    tetrahedron that integrates them up to [4/3 eps], and exactly for [eps = 0]. *)
Theorem C71_jaskowiec_sukumar tet_data order row n eps : tet_data order = Some row ->
  Forall (fun p => length p = 3%nat) (tr_points row) -> length (tr_weights row) = length (tr_points row) ->
  averages 3 (map (map (fun t => 2 * t - 1)) (tr_points row)) (tr_weights row) 1 n eps ->
  exists q, js_quad tet_data order 3 = Ok q /\ wf_quad q /\ q_dim q = 3%nat /\ exact_to q = Ok (degree (tr_degree row))
    /\ (Forall (fun w => 0 < w) (tr_weights row) -> Forall (fun w => 0 < w) (q_weights q))
    /\ integrates_within q (Simplex 3) n (4 / 3 * eps) /\ (eps = 0 -> integrates q (Simplex 3) n).
Proof.
  intros E LP LW HA. unfold js_quad. cbn [Nat.eqb bind]. rewrite E. eexists. split; [reflexivity|]. set (q := mkQuad _ _ _ _ _).
  assert (EV : 2 ^ 3 / INR (fact 3) = 4 / 3) by exact svol_3.
  destruct (averages_within 3 _ _ 1 n eps q HA eq_refl eq_refl) as (WF & HI).
  - unfold q. cbn [q_weights]. apply map_ext. intros w. rewrite EV. field.
  - lra.
  - apply Forall_map. eapply Forall_impl; [|exact LP]. intros p L. now rewrite map_length.
  - now rewrite map_length.
  - rewrite EV in HI. split; [exact WF|]. split; [reflexivity|]. split; [reflexivity|]. split; [|split; [exact HI|]].
    + intros HP. unfold q. cbn [q_weights]. apply Forall_map. eapply Forall_impl; [|exact HP]. cbv beta. intros; lra.
    + intros ->. rewrite Rmult_0_r in HI. apply within_0; [exact HI|constructor|exact WF|reflexivity].
Qed.
(** VioreanuRokhlinSimplexQuadrature: the same for a row given in the coordinates of the
    equilateral simplex, whatever the sum of its weights; the weights of the rule
    add up to the volume. *)
Theorem C71_vioreanu_rokhlin triangle_data tetrahedron_data order dims row xs n eps : dims = 2%nat \/ dims = 3%nat ->
  (if (dims =? 2)%nat then triangle_data order else tetrahedron_data order) = Some row ->
  Forall (fun p => length p = dims) (tr_points row) -> length (tr_weights row) = length (tr_points row) ->
  mapM equilateral_to_unit (tr_points row) = Ok xs -> list_sum (tr_weights row) <> 0 ->
  averages dims xs (tr_weights row) (list_sum (tr_weights row)) n eps ->
  exists q, vr_quad triangle_data tetrahedron_data order dims = Ok q /\ wf_quad q /\ q_dim q = dims /\ exact_to q = Ok (degree (tr_degree row))
    /\ is_int (Simplex dims) (fun _ => 1) (list_sum (q_weights q))
    /\ (Forall (fun w => 0 < w) (tr_weights row) -> Forall (fun w => 0 < w) (q_weights q))
    /\ integrates_within q (Simplex dims) n (2 ^ dims / INR (fact dims) * eps) /\ (eps = 0 -> integrates q (Simplex dims) n).
Proof.
  intros Hd E LP LW EX HW HA.
  assert (EM : exists m, equilateral_to_unit_map dims = Ok m) by (destruct Hd as [->| ->]; eexists; reflexivity). destruct EM as (m & EM).
  assert (EX' : mapM (am_call m) (tr_points row) = Ok xs).
  { rewrite <- EX. clear -LP EM. induction LP as [|p ps L _ IH]; [reflexivity|]. cbn [mapM]. unfold equilateral_to_unit at 1. rewrite L, EM. cbn [bind]. now rewrite IH. }
  assert (LX : Forall (fun x => length x = dims) xs /\ length xs = length (tr_points row)).
  { clear -LP EM EX' Hd. revert xs EX'. induction LP as [|p ps L _ IH]; intros xs EX'; cbn [mapM] in EX'.
    - assert (xs = []) as -> by congruence. split; [constructor|reflexivity].
    - destruct (am_call m p) as [x|] eqn:EC; [|discriminate]. cbn [bind] in EX'. destruct (mapM (am_call m) ps) as [xs'|] eqn:EP; [|discriminate]. cbn [bind] in EX'.
      assert (xs = x :: xs') as -> by congruence. destruct (IH xs' eq_refl) as (I1 & I2). split; [|cbn [length]; congruence]. constructor; [|exact I1].
      destruct (am_call_ok m p x EC) as (_ & Lx & _). rewrite Lx. destruct Hd as [->| ->]; unfold equilateral_to_unit_map in EM;
        match type of EM with Ok ?r = _ => assert (m = r) as -> by congruence end; reflexivity. }
  destruct LX as (LX & LX').
  set (W := list_sum (tr_weights row)) in *.
  assert (EV : vr_quad triangle_data tetrahedron_data order dims
    = Ok (mkQuad false dims xs (map (fun w => w * (2 ^ dims / INR (fact dims) / W)) (tr_weights row)) (Some (degree (tr_degree row))))).
  { unfold vr_quad. destruct Hd as [->| ->]; cbn [bind Nat.eqb] in *; rewrite EM; cbn [bind]; rewrite E; cbn [bind]; rewrite EX'; cbn [bind]; f_equal; f_equal;
      apply map_ext; intros w; [change (2 ^ 2 / INR (fact 2)) with (svol 2); rewrite svol_2|change (2 ^ 3 / INR (fact 3)) with (svol 3); rewrite svol_3]; reflexivity. }
  rewrite EV. eexists. split; [reflexivity|]. set (q := mkQuad _ _ _ _ _).
  destruct (averages_within dims xs (tr_weights row) W n eps q HA eq_refl eq_refl eq_refl HW LX ltac:(congruence)) as (WF & HI).
  split; [exact WF|]. split; [reflexivity|]. split; [reflexivity|]. split; [|split; [|split; [exact HI|]]].
  - replace (list_sum (q_weights q)) with (2 ^ dims / INR (fact dims)).
    + pose proof (dirichlet_ref dims (repeat 0%nat dims) (repeat_length _ _)) as D.
      replace (2 ^ dims * (prodfact (repeat 0%nat dims) / INR (fact (total (repeat 0%nat dims) + dims)))) with (2 ^ dims / INR (fact dims)) in D.
      * eapply is_int_ext; [|exact D]. intros x _. cbv beta. apply monoval_repeat0.
      * destruct Hd as [->| ->]; cbn; field.
    + unfold q. cbn [q_weights]. set (c := 2 ^ dims / INR (fact dims) / W).
      transitivity (c * W); [unfold c; field; split; [apply INR_fact_neq_0|exact HW]|]. clearbody c. unfold W. generalize (tr_weights row). clear. intros ws.
      induction ws as [|w ws IH]; cbn [map]; [unfold list_sum; cbn; ring|]. change (list_sum (w :: ws)) with (w + list_sum ws).
      change (list_sum (w * c :: map (fun w0 => w0 * c) ws)) with (w * c + list_sum (map (fun w0 => w0 * c) ws)). rewrite <- IH. ring.
  - intros HP. unfold q. cbn [q_weights]. apply Forall_map.
    assert (PW : 0 < W).
    { assert (PW : 0 <= W); [|lra]. unfold W. clear -HP. induction HP as [|w ws Hw HP IH]; [cbn; lra|]. change (0 <= w + list_sum ws). lra. }
    eapply Forall_impl; [|exact HP]. cbv beta. intros w Pw. apply Rmult_lt_0_compat; [exact Pw|].
    apply Rdiv_lt_0_compat; [|exact PW]. apply Rdiv_lt_0_compat; [apply pow_lt; lra|apply INR_fact_lt_0].
  - intros ->. rewrite Rmult_0_r in HI. apply within_0; [exact HI|constructor|exact WF|reflexivity].
Qed.

Lemma vr_shape d row : d = 2%nat \/ d = 3%nat -> Forall (fun p => length p = d) (tr_points row) -> forall m, equilateral_to_unit_map d = Ok m ->
  exists nodes, mapM (am_call m) (tr_points row) = Ok nodes.
Proof.
  intros Hd LP m EM. induction LP as [|p ps L _ (ns & IH)]; [eexists; reflexivity|].
  destruct (am_call_def m p) as (x & Ex).
  1,2: destruct Hd as [->| ->]; unfold equilateral_to_unit_map in EM; match type of EM with Ok ?r = _ => assert (m = r) as -> by congruence end; try reflexivity; now rewrite L.
  exists (x :: ns). cbn [mapM]. rewrite Ex. cbn [bind]. now rewrite IH.
Qed.
Theorem C71_refused_vioreanu_rokhlin triangle_data tetrahedron_data order dims :
  (forall row, triangle_data order = Some row -> Forall (fun p => length p = 2%nat) (tr_points row)) ->
  (forall row, tetrahedron_data order = Some row -> Forall (fun p => length p = 3%nat) (tr_points row)) ->
  ((exists q, vr_quad triangle_data tetrahedron_data order dims = Ok q) \/ vr_quad triangle_data tetrahedron_data order dims = Err RuleUnavailable)
  /\ ((exists q, vr_quad triangle_data tetrahedron_data order dims = Ok q)
      <-> (dims = 2%nat /\ triangle_data order <> None) \/ (dims = 3%nat /\ tetrahedron_data order <> None)).
Proof.
  intros H2 H3. unfold vr_quad. destruct dims as [|[|[|[|d]]]].
  1,2,5: cbn [bind]; split; [now right|split; [intros (q & E); discriminate|intros [(E & _)|(E & _)]; discriminate]].
  - cbn [bind]. destruct (equilateral_to_unit_map 2) as [m|] eqn:EM; [|discriminate]. cbn [bind]. destruct (triangle_data order) as [row|] eqn:E.
    + destruct (vr_shape 2 row (or_introl eq_refl) (H2 row eq_refl) m EM) as (ns & ->). cbn [bind]. cbv zeta.
      split; [eauto|]. split; [intros _; left; split; [reflexivity|discriminate]|eauto].
    + split; [now right|]. split; [intros (q & Eq); discriminate|intros [(_ & N)|(Ed & _)]; [now elim N|discriminate]].
  - cbn [bind]. destruct (equilateral_to_unit_map 3) as [m|] eqn:EM; [|discriminate]. cbn [bind]. destruct (tetrahedron_data order) as [row|] eqn:E.
    + destruct (vr_shape 3 row (or_intror eq_refl) (H3 row eq_refl) m EM) as (ns & ->). cbn [bind]. cbv zeta.
      split; [eauto|]. split; [intros _; right; split; [reflexivity|discriminate]|eauto].
    + split; [now right|]. split; [intros (q & Eq); discriminate|intros [(Ed & _)|(_ & N)]; [discriminate|now elim N]].
Qed.
(** The centroid rules of degree 1 meet the hypotheses with no error at all. *)
Example C71_example_jaskowiec_sukumar : let row := mkRow [[1 / 4; 1 / 4; 1 / 4]] [1] 1 in
  averages 3 (map (map (fun t => 2 * t - 1)) (tr_points row)) (tr_weights row) 1 1 0 /\ Forall (fun p => length p = 3%nat) (tr_points row) /\ Forall (fun w => 0 < w) (tr_weights row).
Proof.
  cbv zeta. cbn [tr_points tr_weights]. split; [|split; [repeat constructor|constructor; [lra|constructor]]]. intros e v L T HI.
  rewrite (is_int_unique _ _ _ _ HI (dirichlet_ref 3 e L)). clear HI v.
  destruct e as [|a [|b [|c [|]]]]; try discriminate. unfold total in T. cbn in T.
  assert (H : (a = 0 /\ b = 0 /\ c = 0 \/ a = 1 /\ b = 0 /\ c = 0 \/ a = 0 /\ b = 1 /\ c = 0 \/ a = 0 /\ b = 0 /\ c = 1)%nat) by lia. clear T L.
  assert (Z : forall x, x = 0 -> Rabs x <= 0) by (intros x ->; rewrite Rabs_R0; lra).
  destruct H as [(-> & -> & ->)|[(-> & -> & ->)|[(-> & -> & ->)|(-> & -> & ->)]]]; apply Z; unfold moment, prodfact, total; cbn; field.
Qed.
Example C71_example_vioreanu_rokhlin : let row := mkRow [[0; 0]] [5] 1 in exists xs, mapM equilateral_to_unit (tr_points row) = Ok xs
  /\ averages 2 xs (tr_weights row) (list_sum (tr_weights row)) 1 0 /\ list_sum (tr_weights row) <> 0.
Proof.
  cbv zeta. cbn [tr_points tr_weights]. exists [[-1 / 3; -1 / 3]]. split; [|split].
  - cbn [mapM]. unfold equilateral_to_unit. cbn -[IZR]. do 3 f_equal; [field|f_equal; field]. 1,2: destruct sqrt3_facts; lra.
  - intros e v L T HI. rewrite (is_int_unique _ _ _ _ HI (dirichlet_ref 2 e L)). clear HI v.
    destruct e as [|a [|b [|]]]; try discriminate. unfold total in T. cbn in T.
    assert (H : (a = 0 /\ b = 0 \/ a = 1 /\ b = 0 \/ a = 0 /\ b = 1)%nat) by lia. clear T L.
    assert (Z : forall x, x = 0 -> Rabs x <= 0) by (intros x ->; rewrite Rabs_R0; lra).
    destruct H as [(-> & ->)|[(-> & ->)|(-> & ->)]]; apply Z; unfold moment, prodfact, total, list_sum; cbn; field.
  - unfold list_sum. cbn. lra.
Qed.

(** ** C72: the shipped tables *)
(** What "tabulated" says (ProofTables4.v): one node of the right length per weight,
    the listed degree as exact_to, positive weights, nodes inside the shape, and
    exactness up to 5/10^14 for the degree. *)
Theorem C72_tabulated q s n : tabulated q s n <->
  wf_quad q /\ q_dim q = shape_dim s /\ exact_to q = Ok (degree n) /\ Forall (fun w => 0 < w) (q_weights q) /\ Forall (in_shape s) (q_nodes q)
  /\ forall ts, Forall (fun t : R * list nat => length (snd t) = shape_dim s /\ (total (snd t) <= n)%nat) ts ->
       exists v r, is_int s (fun x => polyval ts (map (fun t => (t + 1) / 2) x)) v /\ q_call q (fun x => Ok (polyval ts (map (fun t => (t + 1) / 2) x))) = Ok r
         /\ Rabs (r - v) <= 5 / 10 ^ 14 * fold_right (fun t s => Rabs (fst t) + s) 0 ts.
Proof. reflexivity. Qed.

(** The tables as read from the source. *)
Definition wv2 := read_table 17 19 wv_quad_data.
Definition wv3 := read_table 17 18 wv_hex_data.
Definition js3 := read_table 25 21 js_tet_data.
Definition vr2 := read_table 35 34 vr_triangle_data.
Definition vr3 := read_table 34 34 vr_tetrahedron_data.
Definition xg := read_xg 32 19 xg_triangle xg_tetrahedron.

Lemma checked_row {X} (f : nat * X -> bool) t order r : forallb f t = true -> assoc order t = Some r -> f (order, r) = true.
Proof. intros H E. rewrite forallb_forall in H. apply H. now apply assoc_In. Qed.

(** The keys of each dictionary are distinct; those of the tables. *)
Lemma wv2_keys : map fst wv_quad_data = map (fun j => 2 * j + 1)%nat (seq 0 11). Proof. vm_compute. reflexivity. Qed.
Lemma wv3_keys : map fst wv_hex_data = map (fun j => 2 * j + 1)%nat (seq 0 6). Proof. vm_compute. reflexivity. Qed.
Lemma js3_keys : map fst js_tet_data = seq 0 20. Proof. vm_compute. reflexivity. Qed.
Lemma vr2_keys : map fst vr_triangle_data = seq 0 21. Proof. vm_compute. reflexivity. Qed.
Lemma vr3_keys : map fst vr_tetrahedron_data = seq 0 11. Proof. vm_compute. reflexivity. Qed.
Lemma xg2_keys : map fst xg_triangle = seq 1 50. Proof. vm_compute. reflexivity. Qed.
Lemma xg3_keys : map fst xg_tetrahedron = seq 1 15. Proof. vm_compute. reflexivity. Qed.
Theorem C72_keys_distinct : NoDup (map fst wv_quad_data) /\ NoDup (map fst wv_hex_data) /\ NoDup (map fst js_tet_data) /\ NoDup (map fst vr_triangle_data)
  /\ NoDup (map fst vr_tetrahedron_data) /\ NoDup (map fst xg_triangle) /\ NoDup (map fst xg_tetrahedron).
Proof.
  rewrite wv2_keys, wv3_keys, js3_keys, vr2_keys, vr3_keys, xg2_keys, xg3_keys.
  repeat split; try apply seq_NoDup; apply FinFun.Injective_map_NoDup; try apply seq_NoDup; intros a b; lia.
Qed.
(** The rows under "points" have one entry per weight, and there is one of them per
    axis once the empty ones are dropped. *)
Definition rectangular (d : nat) (t : dec_table) : Prop :=
  Forall (fun kv => let '(points, weights, _) := snd kv in let rows := filter (fun r => negb (length r =? 0)%nat) points in
                    length rows = d /\ Forall (fun r => length r = length weights) rows) t.
Definition rectangular_b (d : nat) (t : dec_table) : bool :=
  forallb (fun kv => let '(points, weights, _) := snd kv in let rows := filter (fun r => negb (length r =? 0)%nat) points in
                     (length rows =? d)%nat && forallb (fun r => (length r =? length weights)%nat) rows) t.
Lemma rectangular_ok d t : rectangular_b d t = true -> rectangular d t.
Proof.
  intros H. apply Forall_forall. intros (k, ((p, w), n)) Hi. unfold rectangular_b in H. rewrite forallb_forall in H. specialize (H _ Hi). cbn [snd] in *. cbv zeta in *.
  apply andb_true_iff in H. destruct H as (H1 & H2). apply Nat.eqb_eq in H1. split; [exact H1|]. apply Forall_forall. intros r Hr. rewrite forallb_forall in H2. now apply Nat.eqb_eq, H2.
Qed.
Theorem C72_rectangular : rectangular 2 wv_quad_data /\ rectangular 3 wv_hex_data /\ rectangular 3 js_tet_data /\ rectangular 2 vr_triangle_data /\ rectangular 3 vr_tetrahedron_data
  /\ Forall (fun kv => length (fst (snd kv)) = length (snd (snd kv)) /\ Forall (fun p => length p = 2%nat) (fst (snd kv))) xg_triangle
  /\ Forall (fun kv => length (fst (snd kv)) = length (snd (snd kv)) /\ Forall (fun p => length p = 3%nat) (fst (snd kv))) xg_tetrahedron.
Proof.
  assert (X : forall d kv, xg_check d kv = true -> length (fst (snd kv)) = length (snd (snd kv)) /\ Forall (fun p => length p = d) (fst (snd kv))).
  { intros d (k, (p, w)) H. unfold xg_check in H. apply andb_true_iff in H. destruct H as (H & _). cbn [fst snd] in *. split; [|exact (check_lengths _ _ _ _ _ _ _ _ _ _ _ _ _ H)].
    unfold check_points in H. cbv zeta in H. apply andb_true_iff in H. destruct H as (H & _). apply andb_true_iff in H. destruct H as (_ & H). apply Nat.eqb_eq in H. now symmetry. }
  repeat split; try (apply rectangular_ok; vm_compute; reflexivity); apply Forall_forall; intros kv Hi; apply X.
  - pose proof xg_checked2 as H. rewrite forallb_forall in H. now apply H.
  - pose proof xg_checked3 as H. rewrite forallb_forall in H. now apply H.
Qed.

(** WitherdenVincentQuadrature: odd orders up to 21 on the square and 11 on the cube. *)
Definition wv_available (order dims : nat) : Prop := Nat.Odd order /\ (dims = 2%nat /\ (order <= 21)%nat \/ dims = 3%nat /\ (order <= 11)%nat).
Lemma odd_key order N : In order (map (fun j => 2 * j + 1)%nat (seq 0 N)) <-> Nat.Odd order /\ (order < 2 * N)%nat.
Proof.
  rewrite in_map_iff. split.
  - intros (j & <- & Hj). apply in_seq in Hj. split; [now exists j|lia].
  - intros ((j & ->) & H). exists j. split; [reflexivity|]. apply in_seq. lia.
Qed.
Lemma wv_degrees : forallb (fun kv : nat * dec_row => (fst kv =? snd (snd kv))%nat) (wv_quad_data ++ wv_hex_data) = true.
Proof. vm_compute. reflexivity. Qed.
Theorem C72_witherden_vincent order dims :
  (wv_available order dims -> exists q, wv_quad wv2 wv3 order dims = Ok q /\ tabulated q (TPShape CHypercube dims (repeat (Simplex 1) dims)) order)
  /\ (~ wv_available order dims -> wv_quad wv2 wv3 order dims = Err RuleUnavailable).
Proof.
  pose proof wv_degrees as DG. rewrite forallb_app in DG. apply andb_true_iff in DG. destruct DG as (G2 & G3). split.
  - intros (HO & [(-> & H)|(-> & H)]).
    + assert (K : In order (map fst wv_quad_data)) by (rewrite wv2_keys; apply odd_key; split; [exact HO|lia]). apply assoc_keys in K. destruct K as (r & E).
      destruct (wv_row 2 r (or_introl eq_refl) (checked_row (fun kv => wv_check 2 (snd kv)) _ order r wv_checked2 E)) as (q & Eq & T & _).
      exists q. apply (checked_row _ _ _ _ G2) in E as D. apply Nat.eqb_eq in D. cbn [fst snd] in D. split; [|rewrite D; exact T].
      unfold wv_quad, wv2, read_table. cbn [bind]. rewrite E. cbn [option_map]. now rewrite Eq.
    + assert (K : In order (map fst wv_hex_data)) by (rewrite wv3_keys; apply odd_key; split; [exact HO|lia]). apply assoc_keys in K. destruct K as (r & E).
      destruct (wv_row 3 r (or_intror eq_refl) (checked_row (fun kv => wv_check 3 (snd kv)) _ order r wv_checked3 E)) as (q & Eq & T & _).
      exists q. apply (checked_row _ _ _ _ G3) in E as D. apply Nat.eqb_eq in D. cbn [fst snd] in D. split; [|rewrite D; exact T].
      unfold wv_quad, wv3, read_table. cbn [bind]. rewrite E. cbn [option_map]. now rewrite Eq.
  - intros N. unfold wv_quad, wv2, wv3, read_table. destruct dims as [|[|[|[|d]]]]; try reflexivity; cbn [bind].
    + rewrite assoc_none; [reflexivity|]. rewrite wv2_keys, odd_key. intros (HO & H). apply N. split; [exact HO|left; split; [reflexivity|]]. destruct HO as (j & ->). lia.
    + rewrite assoc_none; [reflexivity|]. rewrite wv3_keys, odd_key. intros (HO & H). apply N. split; [exact HO|right; split; [reflexivity|]]. destruct HO as (j & ->). lia.
Qed.

(** JaskowiecSukumarQuadrature: orders up to 19 on the tetrahedron, exact to the order
    plus one. *)
Lemma js_degrees : forallb (fun kv : nat * dec_row => (fst kv + 1 =? snd (snd kv))%nat) js_tet_data = true.
Proof. vm_compute. reflexivity. Qed.
Theorem C72_jaskowiec_sukumar order dims :
  (dims = 3%nat /\ (order <= 19)%nat -> exists q, js_quad js3 order dims = Ok q /\ tabulated q (Simplex dims) (order + 1))
  /\ (~ (dims = 3%nat /\ (order <= 19)%nat) -> js_quad js3 order dims = Err RuleUnavailable).
Proof.
  split.
  - intros (-> & H). assert (K : In order (map fst js_tet_data)) by (rewrite js3_keys; apply in_seq; lia). apply assoc_keys in K. destruct K as (r & E).
    destruct (js_row r (checked_row (fun kv => js_check (snd kv)) _ order r js_checked E)) as (q & Eq & T & _).
    exists q. apply (checked_row _ _ _ _ js_degrees) in E as D. apply Nat.eqb_eq in D. cbn [fst snd] in D. split; [|rewrite D; exact T].
    unfold js_quad, js3, read_table. cbn [Nat.eqb bind]. rewrite E. cbn [option_map]. now rewrite Eq.
  - intros N. unfold js_quad, js3, read_table. destruct (Nat.eqb_spec dims 3) as [->|_]; cbn [bind]; [|reflexivity].
    rewrite assoc_none; [reflexivity|]. rewrite js3_keys, in_seq. intros H. apply N. split; [reflexivity|lia].
Qed.

(** VioreanuRokhlinSimplexQuadrature: orders up to 20 on the triangle and 10 on the
    tetrahedron; as many nodes as polynomials of that degree have coefficients, and
    exact to a higher degree. *)
Definition vr_available (order dims : nat) : Prop := dims = 2%nat /\ (order <= 20)%nat \/ dims = 3%nat /\ (order <= 10)%nat.
Lemma vr_degrees : forallb (fun kv : nat * dec_row => (fst kv <? snd (snd kv))%nat) (vr_triangle_data ++ vr_tetrahedron_data) = true.
Proof. vm_compute. reflexivity. Qed.
Lemma vr_counts2 : forallb (fun kv : nat * dec_row => (2 * length (snd (fst (snd kv))) =? (fst kv + 1) * (fst kv + 2))%nat) vr_triangle_data = true.
Proof. vm_compute. reflexivity. Qed.
Lemma vr_counts3 : forallb (fun kv : nat * dec_row => (6 * length (snd (fst (snd kv))) =? (fst kv + 1) * (fst kv + 2) * (fst kv + 3))%nat) vr_tetrahedron_data = true.
Proof. vm_compute. reflexivity. Qed.
Theorem C72_vioreanu_rokhlin order dims :
  (vr_available order dims -> exists q n, vr_quad vr2 vr3 order dims = Ok q /\ (order < n)%nat /\ tabulated q (Simplex dims) n
     /\ (dims = 2%nat -> 2 * length (q_nodes q) = (order + 1) * (order + 2))%nat
     /\ (dims = 3%nat -> 6 * length (q_nodes q) = (order + 1) * (order + 2) * (order + 3))%nat)
  /\ (~ vr_available order dims -> vr_quad vr2 vr3 order dims = Err RuleUnavailable).
Proof.
  pose proof vr_degrees as DG. rewrite forallb_app in DG. apply andb_true_iff in DG. destruct DG as (G2 & G3). split.
  - intros [(-> & H)|(-> & H)].
    + assert (K : In order (map fst vr_triangle_data)) by (rewrite vr2_keys; apply in_seq; lia). apply assoc_keys in K. destruct K as (r & E).
      destruct (vr_row 2 r (or_introl eq_refl) (checked_row (fun kv => vr_check 2 (snd kv)) _ order r vr_checked2 E)) as (q & Eq & T & L).
      exists q, (snd r). apply (checked_row _ _ _ _ G2) in E as D. apply Nat.ltb_lt in D. cbn [fst snd] in D.
      apply (checked_row _ _ _ _ vr_counts2) in E as D2. apply Nat.eqb_eq in D2. cbn [fst snd] in D2. split; [|split; [exact D|split; [exact T|split; [|discriminate]]]].
      * rewrite <- Eq. unfold vr_quad, vr2, read_table. cbn [bind]. rewrite E, svol_2. cbn [option_map vr_k]. reflexivity.
      * intros _. rewrite <- D2, <- L. destruct T as ((_ & LW) & _). now rewrite LW.
    + assert (K : In order (map fst vr_tetrahedron_data)) by (rewrite vr3_keys; apply in_seq; lia). apply assoc_keys in K. destruct K as (r & E).
      destruct (vr_row 3 r (or_intror eq_refl) (checked_row (fun kv => vr_check 3 (snd kv)) _ order r vr_checked3 E)) as (q & Eq & T & L).
      exists q, (snd r). apply (checked_row _ _ _ _ G3) in E as D. apply Nat.ltb_lt in D. cbn [fst snd] in D.
      apply (checked_row _ _ _ _ vr_counts3) in E as D2. apply Nat.eqb_eq in D2. cbn [fst snd] in D2. split; [|split; [exact D|split; [exact T|split; [discriminate|]]]].
      * rewrite <- Eq. unfold vr_quad, vr3, read_table. cbn [bind]. rewrite E, svol_3. cbn [option_map vr_k]. reflexivity.
      * intros _. rewrite <- D2, <- L. destruct T as ((_ & LW) & _). now rewrite LW.
  - intros N. unfold vr_quad, vr2, vr3, read_table. destruct dims as [|[|[|[|d]]]]; try reflexivity; cbn [bind equilateral_to_unit_map].
    + rewrite assoc_none; [reflexivity|]. rewrite vr2_keys, in_seq. intros H. apply N. left. split; [reflexivity|lia].
    + rewrite assoc_none; [reflexivity|]. rewrite vr3_keys, in_seq. intros H. apply N. right. split; [reflexivity|lia].
Qed.

(** XiaoGimbutasSimplexQuadrature: orders 1 to 50 on the triangle and 1 to 15 on the
    tetrahedron. *)
Definition xg_available (order dims : nat) : Prop := (1 <= order)%nat /\ (dims = 2%nat /\ (order <= 50)%nat \/ dims = 3%nat /\ (order <= 15)%nat).
Theorem C72_xiao_gimbutas order dims :
  (xg_available order dims -> exists q, xg_quad xg order dims = Ok q /\ tabulated q (Simplex dims) order)
  /\ (~ xg_available order dims -> xg_quad xg order dims = Err RuleUnavailable).
Proof.
  split.
  - intros (H1 & [(-> & H)|(-> & H)]).
    + assert (K : In order (map fst xg_triangle)) by (rewrite xg2_keys; apply in_seq; lia). apply assoc_keys in K. destruct K as (r & E).
      destruct (xg_row 2 order r (or_introl eq_refl) (checked_row (xg_check 2) _ order r xg_checked2 E)) as (q & Eq & T & _).
      exists q. split; [|exact T]. rewrite <- Eq. unfold xg_quad, xg, read_xg. cbn [Nat.eqb orb negb]. rewrite E. reflexivity.
    + assert (K : In order (map fst xg_tetrahedron)) by (rewrite xg3_keys; apply in_seq; lia). apply assoc_keys in K. destruct K as (r & E).
      destruct (xg_row 3 order r (or_intror eq_refl) (checked_row (xg_check 3) _ order r xg_checked3 E)) as (q & Eq & T & _).
      exists q. split; [|exact T]. rewrite <- Eq. unfold xg_quad, xg, read_xg. cbn [Nat.eqb orb negb]. rewrite E. reflexivity.
  - intros N. unfold xg_quad, xg, read_xg. destruct dims as [|[|[|[|d]]]]; try reflexivity; cbn [Nat.eqb orb negb].
    + rewrite assoc_none; [reflexivity|]. rewrite xg2_keys, in_seq. intros H. apply N. split; [lia|left; split; [reflexivity|lia]].
    + rewrite assoc_none; [reflexivity|]. rewrite xg3_keys, in_seq. intros H. apply N. split; [lia|right; split; [reflexivity|lia]].
Qed.
(** Cases of each kind: the seven-point rule of degree 5 among them. *)
Example C72_example : wv_available 5 2 /\ ~ wv_available 4 2 /\ vr_available 20 2 /\ ~ vr_available 11 3 /\ xg_available 50 2 /\ ~ xg_available 0 2
  /\ exists q, xg_quad xg 5 2 = Ok q /\ length (q_nodes q) = 7%nat.
Proof.
  split; [split; [now exists 2%nat|left; split; [reflexivity|lia]]|]. split; [intros ((j & H) & _); lia|]. split; [left; split; [reflexivity|lia]|].
  split; [intros [(H & _)|(_ & H)]; [discriminate|lia]|]. split; [split; [lia|left; split; [reflexivity|lia]]|]. split; [intros (H & _); lia|].
  destruct (proj1 (C72_xiao_gimbutas 5 2)) as (q & E & T); [split; [lia|left; split; [reflexivity|lia]]|]. exists q. split; [exact E|].
  assert (K : In 5%nat (map fst xg_triangle)) by (rewrite xg2_keys; apply in_seq; lia). apply assoc_keys in K. destruct K as (r & EA).
  destruct (xg_row 2 5 r (or_introl eq_refl) (checked_row (xg_check 2) _ 5 r xg_checked2 EA)) as (q' & Eq & T' & L).
  assert (q' = q). { assert (Ok q' = Ok q) as HH by (rewrite <- Eq, <- E; unfold xg_quad, xg, read_xg; cbn [Nat.eqb orb negb]; rewrite EA; reflexivity). congruence. }
  subst q'. destruct T as ((_ & LW) & _). rewrite <- LW, L.
  assert (option_map (fun pw : list (list Z) * list Z => length (snd pw)) (assoc 5 xg_triangle) = Some 7%nat) as HL by (vm_compute; reflexivity).
  rewrite EA in HL. cbn [option_map] in HL. congruence.
Qed.

Print Assumptions C71_refused_witherden_vincent.
Print Assumptions C71_available_witherden_vincent.
Print Assumptions C71_refused_jaskowiec_sukumar.
Print Assumptions C71_available_jaskowiec_sukumar.
Print Assumptions C71_refused_vioreanu_rokhlin.
Print Assumptions C71_jaskowiec_sukumar.
Print Assumptions C71_vioreanu_rokhlin.
Print Assumptions C72_tabulated.
Print Assumptions C72_keys_distinct.
Print Assumptions C72_rectangular.
Print Assumptions C72_witherden_vincent.
Print Assumptions C72_jaskowiec_sukumar.
Print Assumptions C72_vioreanu_rokhlin.
Print Assumptions C72_xiao_gimbutas.
