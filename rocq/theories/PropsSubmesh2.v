(** * C12: submeshes of hypercubes, and what happens for prisms *)
From Coq Require Import List Arith Bool Reals Lra Lia Permutation.
From Verif Require Import Py PyToolsModel RSum ModelNd ModelShapes ModelSpaces ModelNodes ModelSubmesh SpecIndex SpecGeometry SpecSubmesh EnumFacts ProofNodeTuples ProofShapes ProofSpaces ProofSubmesh ProofSubmesh2 ProofSubmesh3 PropsSubmesh.
Import ListNotations.
Local Open Scope nat_scope.

(** The node tuples form the full lattice of the hypercube, each tuple once, in any order. *)
Definition cube_lattice (d n : nat) (nts : list (list nat)) : Prop :=
  NoDup nts /\ forall t, In t nts <-> length t = d /\ Forall (fun i => i <= n) t.
(** Element e, a list of node indices, lists the corners of the given cell in the order of the vertices [vs] of
    the bi-unit cube: corner j is the cell's origin displaced by (vs_j + 1)/2. *)
Definition lists_corners (nts : list (list nat)) (cell : list nat) (vs : list (list R)) (e : list nat) : Prop :=
  length e = length vs /\ forall j, j < length vs -> exists t, nth_error nts (nth j e 0) = Some t /\ length t = length cell
    /\ forall i, i < length cell -> INR (nth i t 0) = (INR (nth i cell 0%nat) + (nth i (nth j vs []) 0 + 1) / 2)%R.
Definition is_cell (d n : nat) (cell : list nat) : Prop := length cell = d /\ Forall (fun i => i < n) cell.

Lemma nth_repeat_lt {A} (a : A) n k d : k < n -> nth k (repeat a n) d = a.
Proof. revert k; induction n; intros [|k] H; cbn; try lia; auto. apply IHn. lia. Qed.
Definition offs (d : nat) : list (list nat) := tp_tuples (repeat [[0]; [1]] d).
Lemma concat_singles (p : list (list nat)) d S : Forall2 (fun x l => In x l) p (repeat S d) -> (forall x, In x S -> exists i, x = [i]) -> length (concat p) = d.
Proof.
  intros H HS. remember (repeat S d) as L. revert d HeqL. induction H as [|x l p L Hx H IH]; intros [|d] E; try discriminate; [easy|]. injection E as -> E. destruct (HS x Hx) as (i & ->). cbn. f_equal. now apply IH.
Qed.
Lemma tp_singles d m t : In t (tp_tuples (repeat (map (fun i => [i]) (seq 0 m)) d)) <-> length t = d /\ Forall (fun i => i < m) t.
Proof.
  rewrite tp_tuples_in. split.
  - intros (p & H & ->). split; [eapply concat_singles; eauto; intros x Hx; apply in_map_iff in Hx as (i & <- & _); eauto|].
    remember (repeat _ d) as L. revert d HeqL. induction H as [|x l p L Hx H IH]; intros [|d] E; try discriminate; [constructor|]. injection E as -> E. apply in_map_iff in Hx as (i & <- & Hi). apply in_seq in Hi. cbn. constructor; [lia|]. eapply IH; eauto.
  - intros (L & F). exists (map (fun i => [i]) t). split.
    + subst d. induction F as [|i t Hi F IH]; cbn; [constructor|]. constructor; [|easy]. apply in_map_iff. exists i. split; [easy|]. apply in_seq. lia.
    + clear. induction t; cbn; congruence.
Qed.
Lemma tp_singles_nodup d m : NoDup (tp_tuples (repeat (map (fun i => [i]) (seq 0 m)) d)).
Proof.
  apply (tp_tuples_NoDup _ (repeat 1 d)).
  - apply Forall_forall. intros x Hx. apply repeat_spec in Hx. subst. apply FinFun.Injective_map_NoDup; [|apply seq_NoDup]. intros a b E. congruence.
  - induction d; cbn; [constructor|]. constructor; [|easy]. apply Forall_forall. intros x Hx. apply in_map_iff in Hx as (i & <- & _). easy.
Qed.
Lemma pn1_tuples n : node_tuples_for_space (PN 1 n) = Ok (map (fun i => [i]) (seq 0 (n + 1))).
Proof.
  cbn [node_tuples_for_space gnitsam]. apply f_equal. generalize (seq 0 (n + 1)). intros l. induction l as [|i l IH]; [easy|]. cbn [flat_map map app] in *. now rewrite IH.
Qed.
Lemma mapM_repeat {A B} (f : A -> res B) a b d : f a = Ok b -> mapM f (repeat a d) = Ok (repeat b d).
Proof. intros E. induction d as [|d IH]; [easy|]. cbn. rewrite E. cbn. rewrite IH. reflexivity. Qed.
Lemma product_tuples c n d : node_tuples_for_space (TPSpace c (repeat (PN 1 n) d)) = Ok (tp_tuples (repeat (map (fun i => [i]) (seq 0 (n + 1))) d)).
Proof. apply node_tuples_tp_eq. apply mapM_repeat. apply pn1_tuples. Qed.
Lemma offs_in d o : In o (offs d) <-> length o = d /\ Forall (fun i => i < 2) o.
Proof. apply (tp_singles d 2). Qed.

(** The order-n space of the hypercube. *)
Lemma flatten_pns n d : space_flatten (repeat (PN 1 n) d) = repeat (PN 1 n) d.
Proof. unfold space_flatten, concat_tuples. induction d as [|d IH]; [easy|]. cbn [repeat map concat app] in *. now rewrite IH. Qed.
Lemma cube_space d n : d <> 1 -> space_for_shape (flat_product CHypercube (repeat 1 d)) (OInt n) = Ok (TPSpace STensorProduct (repeat (PN 1 n) d)).
Proof.
  intros N. unfold flat_product. cbn [space_for_shape bind]. rewrite map_length, repeat_length.
  rewrite zipM_pn by now rewrite !repeat_length. cbn [bind]. 
  assert (E : pn_list (repeat 1 d) (repeat n d) = repeat (PN 1 n) d) by (unfold pn_list; clear; induction d; cbn; congruence). rewrite E.
  destruct d as [|[|d]]; [reflexivity|lia|]. cbn [repeat mk_TensorProductSpace]. unfold tps_init. f_equal. f_equal. apply (flatten_pns n (S (S d))).
Qed.
Lemma cube_submesh d n s nts : mk_Hypercube d = Ok s -> cube_lattice d n nts -> submesh_for_shape s nts = Ok (mesh [offs d] nts).
Proof.
  rewrite mk_hypercube_eq. intros E H. destruct (Nat.eqb_spec d 1) as [->|N]; match type of E with Ok ?x = _ => assert (s = x) as -> by congruence end.
  - cbn [submesh_for_shape]. unfold submesh_for_simplex. rewrite (lattice_dims 1 n nts).
    + cbn [bind simplex_candidates]. apply loop_is.
    + destruct H as (H1 & H2). split; [easy|]. intros t. rewrite H2. split; intros (L & F); (split; [easy|]); destruct t as [|i [|]]; try discriminate; cbn in *; [inversion F; lia|repeat constructor; lia].
  - unfold flat_product. cbn [submesh_for_shape]. unfold submesh_for_hypercube. fold (flat_product CHypercube (repeat 1 d)). rewrite cube_space by easy. cbn [bind]. rewrite product_tuples. cbn [bind]. apply loop_is.
Qed.
(** Vertices and offsets. *)
Lemma selects_map {A B} (g : A -> B) tss idx p : selects tss idx p -> selects (map (map g) tss) idx (map g p).
Proof. induction 1; cbn [map]; constructor; [|easy]. rewrite nth_error_map. now rewrite H. Qed.
Lemma lengths_map {A B} (g : A -> B) tss : map (@length _) (map (map g) tss) = map (@length _) tss.
Proof. rewrite map_map. apply map_ext. intros. apply map_length. Qed.
Lemma tp_tuples_map {A B} (g : A -> B) (tss : list (list (list A))) : tp_tuples (map (map (map g)) tss) = map (map g) (tp_tuples tss).
Proof.
  apply nth_error_ext; [rewrite map_length, !tp_tuples_length; now rewrite lengths_map|]. rewrite tp_tuples_length, lengths_map. intros k Hk.
  set (ns := map (@length _) tss) in *. pose proof (unravelF_valid ns k Hk) as V. destruct (selects_exists tss _ V) as (p & Hp).
  pose proof (tp_tuples_nth _ _ _ Hp) as E1. pose proof (tp_tuples_nth _ _ _ (selects_map (map g) _ _ _ Hp)) as E2. rewrite lengths_map in E2. fold ns in E1, E2. rewrite ravelF_unravelF in E1, E2 by easy.
  rewrite nth_error_map, E1, E2. cbn. now rewrite concat_map.
Qed.
Lemma cube_vertices d s : mk_Hypercube d = Ok s -> exists p, unit_vertices_for_shape s = Ok p /\ pts_cols p = map (map (fun k => 2 * INR k - 1)%R) (offs d).
Proof.
  rewrite mk_hypercube_eq. intros E. assert (V : pts_cols (unit_vertices_for_simplex 1) = map (map (fun k => 2 * INR k - 1)%R) [[0]; [1]]) by (cbn; repeat f_equal; lra).
  assert (F : is_flat s). { destruct (Nat.eqb_spec d 1); match type of E with Ok ?x = _ => assert (s = x) as -> by congruence end; [left; eauto|]. right. exists CHypercube, (repeat 1 d). split; [easy|]. apply amo_repeat. }
  destruct (vertices_ok s F) as (p & E1 & _ & _ & _ & E2). exists p. split; [easy|]. rewrite E2. unfold offs. rewrite <- tp_tuples_map. f_equal.
  assert (EF : factor_dims s = repeat 1 d). { destruct (Nat.eqb_spec d 1); match type of E with Ok ?x = _ => assert (s = x) as -> by congruence end; [now subst d|]. apply factor_dims_flat. }
  rewrite EF. clear -V. induction d as [|d IH]; [easy|]. cbn [repeat map]. rewrite IH. f_equal. exact V.
Qed.
Lemma cell_element d n nts c : cube_lattice d n nts -> In c nts -> (exists e, element_at nts c (offs d) = Ok e) <-> Forall (fun i => i < n) c.
Proof.
  intros (N & H) Hc. pose proof Hc as Hc'. apply H in Hc' as (Lc & Fc). split.
  - intros (e & E). pose proof (element_in nts c (offs d) e E (repeat 1 d)) as I. assert (Ho : In (repeat 1 d) (offs d)). { apply offs_in. rewrite repeat_length. split; [easy|]. apply Forall_forall. intros x Hx. apply repeat_spec in Hx. lia. }
    specialize (I Ho). apply H in I as (_ & I). apply Forall_forall. intros x Hx. apply (In_nth _ _ 0) in Hx as (i & Hi & <-). rewrite Forall_forall in I.
    assert (L : length c = length (repeat 1 d)) by now rewrite repeat_length.
    assert (X : nth i (add_tuples c (repeat 1 d)) 0 = nth i c 0 + 1). { rewrite nth_add by easy. f_equal. apply nth_repeat_lt. lia. }
    assert (Y : nth i c 0 + 1 <= n); [|lia]. rewrite <- X. apply I. apply nth_In. now rewrite add_length.
  - intros F. apply element_exists. intros o Ho. apply offs_in in Ho as (Lo & Fo). apply H. rewrite add_length by congruence. split; [easy|]. clear -F Fo Lc Lo. apply Forall_forall. intros x Hx. apply (In_nth _ _ 0) in Hx as (i & Hi & <-). rewrite add_length in Hi by congruence.
    rewrite nth_add by congruence. rewrite Forall_forall in F, Fo. specialize (F (nth i c 0) ltac:(apply nth_In; lia)). specialize (Fo (nth i o 0) ltac:(apply nth_In; lia)). cbn in *. lia.
Qed.
Lemma offs_zero d : In (repeat 0 d) (offs d).
Proof. apply offs_in. rewrite repeat_length. split; [easy|]. apply Forall_forall. intros x Hx. apply repeat_spec in Hx. lia. Qed.
Lemma add_zero c : add_tuples c (repeat 0 (length c)) = c.
Proof. induction c as [|a c IH]; [easy|]. cbn. rewrite IH. f_equal. lia. Qed.
Lemma element_cell d nts c c' e : length c = d -> length c' = d -> element_at nts c (offs d) = Ok e -> element_at nts c' (offs d) = Ok e -> c = c'.
Proof.
  intros L L' E E'. destruct (element_corners _ _ _ _ E) as (A & _). destruct (element_corners _ _ _ _ E') as (B & _). rewrite A in B. unfold corners in B.
  destruct (In_nth _ _ [] (offs_zero d)) as (j & Hj & Ej). assert (X : nth j (map (add_tuples c) (offs d)) (add_tuples c []) = nth j (map (add_tuples c') (offs d)) (add_tuples c [])) by now rewrite B.
  rewrite map_nth in X. rewrite (nth_indep (map (add_tuples c') (offs d)) _ (add_tuples c' [])), map_nth in X by now rewrite map_length.
  rewrite Ej in X. rewrite <- L in X at 1. rewrite <- L' in X. rewrite !add_zero in X. easy.
Qed.
Theorem C12_hypercube : forall d n s nts, mk_Hypercube d = Ok s -> cube_lattice d n nts ->
  exists vs elements, unit_vertices_for_shape s = Ok vs /\ submesh_for_shape s nts = Ok elements
    /\ length elements = n ^ d /\ NoDup elements
    /\ (forall e, In e elements -> exists cell, is_cell d n cell /\ lists_corners nts cell (pts_cols vs) e)
    /\ (forall cell, is_cell d n cell -> exists e, In e elements /\ lists_corners nts cell (pts_cols vs) e)
    /\ (forall k l cell, k < length elements -> l < length elements -> lists_corners nts cell (pts_cols vs) (nth k elements []) -> lists_corners nts cell (pts_cols vs) (nth l elements []) -> k = l).
Proof.
  intros d n s nts Hs H. destruct (cube_vertices d s Hs) as (vs & Ev & Ec). exists vs, (mesh [offs d] nts). split; [easy|]. split; [now apply (cube_submesh d n)|].
  assert (LC : forall c, In c nts -> length c = d) by (intros c Hc; now apply H in Hc).
  assert (CO : forall c e, length c = d -> element_at nts c (offs d) = Ok e -> lists_corners nts c (pts_cols vs) e).
  { intros c e Lc E. destruct (element_corners _ _ _ _ E) as (A & B & L). rewrite Ec. split; [now rewrite map_length|]. rewrite map_length. intros j Hj. exists (nth j (corners c (offs d)) []).
    assert (Lo : length (nth j (offs d) []) = d). { pose proof (nth_In (offs d) [] Hj) as I. now apply offs_in in I. }
    assert (EC : nth j (corners c (offs d)) [] = add_tuples c (nth j (offs d) [])). { unfold corners. rewrite (nth_indep _ [] (add_tuples c [])) by (now rewrite map_length). apply map_nth. }
    split; [|split].
    - rewrite <- A. rewrite (nth_indep _ [] (nth 0 nts [])) by (rewrite map_length; lia). rewrite (map_nth (fun i => nth i nts [])). apply nth_error_nth'. rewrite Forall_forall in B. apply B. apply nth_In. lia.
    - rewrite EC. apply add_length. congruence.
    - intros i Hi. rewrite EC, nth_add by congruence. rewrite plus_INR. f_equal. rewrite (nth_indep _ [] (map (fun k => 2 * INR k - 1)%R [])) by (now rewrite map_length). rewrite map_nth.
      rewrite (nth_indep _ 0%R (2 * INR 0 - 1)%R) by (rewrite map_length; lia). rewrite (map_nth (fun k => 2 * INR k - 1)%R). field. }
  assert (NM : NoDup (mesh [offs d] nts)).
  { unfold mesh. cbn [flat_map]. apply NoDup_flat_map; [apply H| |].
    - intros c _. rewrite app_nil_r. unfold found. destruct (element_at nts c (offs d)); [repeat constructor; easy|constructor].
    - intros c c' e Hc Hc' X X'. rewrite app_nil_r in X, X'. unfold found in X, X'. destruct (element_at nts c (offs d)) eqn:E; [|easy]. destruct (element_at nts c' (offs d)) eqn:E'; [|easy]. destruct X as [->|[]]. destruct X' as [->|[]]. now apply (element_cell d nts c c' e); auto. }
  assert (IM : forall e, In e (mesh [offs d] nts) -> exists c, In c nts /\ element_at nts c (offs d) = Ok e).
  { intros e He. apply in_result in He as (c & ds & Hc & [<-|[]] & E). eauto. }
  split; [|split; [easy|split; [|split]]].
  - unfold mesh. cbn [flat_map]. transitivity (length (filter (fun c => forallb (fun i => i <? n) c) nts)).
    + assert (G : forall l, (forall c, In c l -> In c nts) -> length (flat_map (fun c => found nts c (offs d) ++ []) l) = length (filter (fun c => forallb (fun i => i <? n) c) l)).
      { induction l as [|c l IH]; intros Hl; [easy|]. cbn [flat_map filter]. rewrite app_nil_r, app_length, IH by (intros; apply Hl; now right). pose proof (cell_element d n nts c H (Hl c ltac:(now left))) as Q. unfold found.
        destruct (forallb (fun i => i <? n) c) eqn:F.
        - destruct (proj2 Q) as (e & ->); [|easy]. apply Forall_forall. intros x Hx. rewrite forallb_forall in F. specialize (F x Hx). now apply Nat.ltb_lt.
        - destruct (element_at nts c (offs d)) eqn:E; [|easy]. exfalso. assert (X : Forall (fun i => i < n) c) by (apply Q; eauto). assert (Y : forallb (fun i => i <? n) c = true); [|congruence]. apply forallb_forall. intros x Hx. rewrite Forall_forall in X. apply Nat.ltb_lt. now apply X. }
      now apply G.
    + transitivity (length (tp_tuples (repeat (map (fun i => [i]) (seq 0 n)) d))).
      * apply Permutation_length. apply NoDup_Permutation; [apply NoDup_filter; apply H|apply tp_singles_nodup|]. intros t. rewrite filter_In, tp_singles, (proj2 H t), forallb_forall. rewrite !Forall_forall. split.
        -- intros ((L & F) & F'). split; [easy|]. intros x Hx. specialize (F' x Hx). now apply Nat.ltb_lt.
        -- intros (L & F). split; [split; [easy|]|]; intros x Hx; specialize (F x Hx); [lia|now apply Nat.ltb_lt].
      * rewrite tp_tuples_length. clear. induction d as [|d IH]; [easy|]. cbn [repeat map]. unfold prod_nat in *. cbn [fold_right Nat.pow]. rewrite IH, map_length, seq_length. easy.
  - intros e He. destruct (IM e He) as (c & Hc & E). exists c. split; [split; [auto|]|apply CO; auto]. apply (cell_element d n nts c H Hc). eauto.
  - intros c (Lc & Fc). assert (Hc : In c nts) by (apply H; split; [easy|]; eapply Forall_impl; [|exact Fc]; cbn; intros; lia). destruct (proj2 (cell_element d n nts c H Hc) Fc) as (e & E). exists e. split; [|apply CO; auto].
    apply in_result. exists c, (offs d). split; [easy|]. split; [now left|easy].
  - intros k l c Hk Hl A B. apply (proj1 (NoDup_nth _ []) NM k l Hk Hl). destruct A as (LA & A), B as (LB & B). apply (nth_ext _ _ 0 0); [congruence|]. intros j Hj. rewrite LA in Hj. destruct (A j Hj) as (t & Et & Lt & Ft). destruct (B j Hj) as (u & Eu & Lu & Fu).
    assert (t = u). { apply (nth_ext _ _ 0 0); [congruence|]. intros i Hi. apply INR_eq. rewrite Ft, Fu by congruence. easy. } subst u.
    assert (I1 : nth j (nth k (mesh [offs d] nts) []) 0 < length nts) by (apply nth_error_Some; congruence). apply (proj1 (NoDup_nth_error nts) (proj1 H)); congruence.
Qed.
(** The lattices are the node tuples of QN(d, n) and of the order-n space of the hypercube. *)
Theorem C12_lattice : forall d n s, mk_Hypercube d = Ok s -> exists space nts,
  space_for_shape s (OInt n) = Ok space /\ node_tuples_for_space space = Ok nts /\ node_tuples_for_space (mk_QN d n) = Ok nts /\ cube_lattice d n nts.
Proof.
  intros d n s E. rewrite mk_hypercube_eq in E.
  assert (L : cube_lattice d n (tp_tuples (repeat (map (fun i => [i]) (seq 0 (n + 1))) d))). { split; [apply tp_singles_nodup|]. intros t. rewrite tp_singles. split; intros (A & F); (split; [easy|]); eapply Forall_impl; try exact F; cbn; intros; lia. }
  destruct (Nat.eqb_spec d 1) as [->|N]; match type of E with Ok ?x = _ => assert (s = x) as -> by congruence end.
  - exists (PN 1 n), (map (fun i => [i]) (seq 0 (n + 1))). split; [reflexivity|]. split; [apply pn1_tuples|]. split; [apply pn1_tuples|]. split; [apply FinFun.Injective_map_NoDup; [intros a b X; congruence|apply seq_NoDup]|].
    intros t. rewrite in_map_iff. split; [intros (i & <- & Hi); apply in_seq in Hi; split; [easy|repeat constructor; lia]|]. intros (Lt & F). destruct t as [|i [|]]; try discriminate. exists i. split; [easy|]. inversion F. apply in_seq. lia.
  - exists (TPSpace STensorProduct (repeat (PN 1 n) d)). eexists. split; [now apply cube_space|]. split; [apply product_tuples|]. split; [|exact L]. unfold mk_QN. destruct (Nat.eqb_spec d 1); [easy|]. unfold tps_init. rewrite flatten_pns. apply product_tuples.
Qed.
Example C12_example : submesh_for_shape (flat_product CHypercube [1; 1]) [[0; 0]; [1; 0]; [2; 0]; [0; 1]; [1; 1]; [2; 1]; [0; 2]; [1; 2]; [2; 2]]
  = Ok [[0; 1; 3; 4]; [1; 2; 4; 5]; [3; 4; 6; 7]; [4; 5; 7; 8]].
Proof. reflexivity. Qed.
Print Assumptions C12_hypercube.
Print Assumptions C12_lattice.

(** Finding: for a prism (triangle x segment) the result is not a tessellation.  Only upright triangles are
    extruded, so for order 2 six of the eight half-size prisms are returned and a neighbourhood of the centre of the
    inverted triangle is in no element. *)
Definition prism : shape := TPShape CTensorProduct 3 [Simplex 2; Simplex 1].
Lemma hull6 n vs x : hull n vs x -> length vs = 6%nat -> exists a b c d e f, (0 <= a /\ 0 <= b /\ 0 <= c /\ 0 <= d /\ 0 <= e /\ 0 <= f /\ a + b + c + d + e + f = 1)%R
  /\ forall i, (i < n)%nat -> nth i x 0%R = (a * nth i (nth 0 vs []) 0 + b * nth i (nth 1 vs []) 0 + c * nth i (nth 2 vs []) 0 + d * nth i (nth 3 vs []) 0 + e * nth i (nth 4 vs []) 0 + f * nth i (nth 5 vs []) 0)%R.
Proof.
  intros (w & W & L & S & Lx & E) Lv. rewrite Lv in L. do 6 (destruct w as [|? w]; [discriminate L|]). destruct w; [|discriminate L]. do 6 (destruct vs as [|? vs]; [discriminate Lv|]). destruct vs; [|discriminate Lv].
  do 6 (match goal with H : Forall _ (_ :: _) |- _ => inversion H; subst; clear H end). exists r, r0, r1, r2, r3, r4. cbn in S. split; [lra|]. intros j Hj. rewrite (E j Hj). cbn [combine map list_sum fold_right nth]. ring.
Qed.
Theorem C12_prism_refuted : exists space nts elements x, mk_TensorProductShape [Simplex 2; Simplex 1] = Ok prism /\ space_for_shape prism (OInt 2) = Ok space /\ node_tuples_for_space space = Ok nts
  /\ submesh_for_shape prism nts = Ok elements /\ length elements = 6%nat /\ in_shape prism x /\ forall e, In e elements -> ~ hull 3 (element_vertices 2 nts e) x.
Proof.
  eexists. eexists. eexists. exists [-(1/3); -(1/3); 0]%R. split; [reflexivity|]. split; [reflexivity|]. split; [reflexivity|]. split; [reflexivity|]. split; [reflexivity|]. split.
  - cbn. exists [-(1/3); -(1/3)]%R, [0]%R. split; [easy|]. split; [|exists [0]%R, []; split; [easy|]; split; [|easy]];
      (split; [easy|]; split; [repeat (apply Forall_cons; [cbn; lra|]); apply Forall_nil|cbn; lra]).
  - intros e He HH. apply hull6 in HH; [|in_cases He; reflexivity]. destruct HH as (a & b & c & d & e' & f & P & Q). pose proof (Q 0%nat ltac:(lia)) as Q0. pose proof (Q 1%nat ltac:(lia)) as Q1. clear Q.
    in_cases He; cbn in Q0, Q1; lra.
Qed.
Print Assumptions C12_prism_refuted.
