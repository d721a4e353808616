(** * Submeshes of simplices: geometry *)
From Coq Require Import List Arith Bool Reals Lra Lia Permutation.
From Verif Require Import Py PyToolsModel RSum ModelShapes ModelSpaces ModelNodes ModelSubmesh SpecIndex SpecGeometry SpecSubmesh EnumFacts ProofDiffPerm ProofSubmesh.
Import ListNotations.
Local Open Scope R_scope.

(** ** Coordinates *)
Lemma position_nth n v i : (i < length v)%nat -> nth i (node_position n v) 0 = -1 + 2 * INR (nth i v 0%nat) / INR n.
Proof.
  intros H. unfold node_position. rewrite (nth_indep _ 0 (-1 + 2 * INR 0 / INR n)) by (now rewrite map_length). apply (map_nth (fun i => -1 + 2 * INR i / INR n)).
Qed.
Lemma mix_avg n d V i : Forall (fun v => length v = d) V -> (i < d)%nat -> forall w, length w = length V ->
  list_sum (map (fun '(a, v) => a * nth i v 0) (combine w (map (node_position n) V))) = - list_sum w + 2 / INR n * avg w V (fun v => nth i v 0%nat).
Proof.
  intros F Hi. unfold avg. induction F as [|v V Hv F IH]; intros [|a w] L; try discriminate; cbn [map combine list_sum fold_right]; [lra|].
  unfold list_sum in IH. rewrite IH by (now injection L). rewrite position_nth by lia. unfold Rdiv. ring.
Qed.
Lemma combination_avg n d w V x : (1 <= n)%nat -> Forall (fun v => length v = d) V -> combination d w (map (node_position n) V) x ->
  length w = length V /\ list_sum w = 1 /\ length x = d /\ forall i, (i < d)%nat -> avg w V (fun v => nth i v 0%nat) = (nth i x 0 + 1) * INR n / 2.
Proof.
  intros Hn F (L & S & Lx & E). rewrite map_length in L. repeat (split; [easy|]). intros i Hi. specialize (E i Hi). rewrite (mix_avg n d) in E by easy. rewrite E, S.
  assert (INR n <> 0) by (apply not_0_INR; lia). now field.
Qed.
Lemma avg_combination n d w V x : (1 <= n)%nat -> Forall (fun v => length v = d) V -> length w = length V -> list_sum w = 1 -> length x = d ->
  (forall i, (i < d)%nat -> avg w V (fun v => nth i v 0%nat) = (nth i x 0 + 1) * INR n / 2) -> combination d w (map (node_position n) V) x.
Proof.
  intros Hn F L S Lx E. split; [now rewrite map_length|]. split; [easy|]. split; [easy|]. intros i Hi. rewrite (mix_avg n d) by easy. rewrite E, S by easy.
  assert (INR n <> 0) by (apply not_0_INR; lia). now field.
Qed.
(** ** Restricting a combination to the vertices that carry weight *)
Lemma restrict {A} (g : A -> list R) (P : A -> bool) d w (l : list A) x : Forall (Rle 0) w -> combination d w (map g l) x -> 
  (forall j a, nth_error l j = Some a -> 0 < nth j w 0 -> P a = true) -> hull d (map g (filter P l)) x.
Proof.
  intros W (L & S & Lx & E) HP. rewrite map_length in L.
  assert (G : exists w', length w' = length (filter P l) /\ Forall (Rle 0) w' /\ list_sum w' = list_sum w
     /\ forall i, list_sum (map (fun '(a, v) => a * nth i v 0) (combine w' (map g (filter P l)))) = list_sum (map (fun '(a, v) => a * nth i v 0) (combine w (map g l)))).
  { clear S Lx E x. revert l L HP. induction W as [|a w Ha W IH]; intros [|b l] L HP; try discriminate.
    - exists []. easy.
    - destruct (IH l) as (w' & L' & W' & S' & E'). { now injection L. } { intros j c Hj Hp. apply (HP (Datatypes.S j) c Hj Hp). }
      cbn [filter]. destruct (P b) eqn:Pb.
      + exists (a :: w'). cbn [length map combine list_sum fold_right]. unfold list_sum in *. split; [now rewrite L'|]. split; [now constructor|]. split; [now rewrite S'|]. intros i. now rewrite E'.
      + assert (a = 0). { destruct Ha as [Ha|<-]; [|easy]. specialize (HP 0%nat b eq_refl Ha). congruence. } subst a.
        exists w'. cbn [map combine list_sum fold_right]. unfold list_sum in *. split; [easy|]. split; [easy|]. split; [rewrite S'; ring|]. intros i. rewrite E'. ring. }
  destruct G as (w' & L' & W' & S' & E'). exists w'. split; [easy|]. split; [now rewrite map_length|]. split; [congruence|]. split; [easy|]. intros i Hi. rewrite E'. now apply E.
Qed.

Section Alcoves.
  Context (d : nat) (cands : list (list (list nat))) (roots : list (list nat)) (low : list (list nat) -> list nat -> nat).
  Context (Hlen : forall ds o, In ds cands -> In o ds -> length o = d) (Hroots : forall l, In l roots -> Forall (fun i => (i < d)%nat) l).
  Context (Hslab : forall ds l, In ds cands -> In l roots -> Forall (fun o => (low ds l <= rootf l o <= low ds l + 1)%nat) ds
     /\ Exists (fun o => rootf l o = low ds l) ds /\ Exists (fun o => (rootf l o = low ds l + 1)%nat) ds).
  Context (Haddr : forall c c' ds ds', length c = d -> length c' = d -> In ds cands -> In ds' cands ->
     (forall l, In l roots -> (rootf l c + low ds l = rootf l c' + low ds' l)%nat) -> c = c' /\ ds = ds').
  Context (Hvert : forall c ds v, length c = d -> length v = d -> In ds cands ->
     (forall l, In l roots -> (rootf l c + low ds l <= rootf l v <= rootf l c + low ds l + 1)%nat) -> In v (corners c ds)).

  Lemma corners_length c ds : length c = d -> In ds cands -> Forall (fun v => length v = d) (corners c ds).
  Proof. intros Lc H. apply Forall_forall. intros v Hv. apply in_map_iff in Hv as (o & <- & Ho). rewrite add_length; [easy|]. rewrite Lc. symmetry. eauto. Qed.
  Lemma corners_slab c ds l : length c = d -> In ds cands -> In l roots ->
    Forall (fun v => (rootf l c + low ds l <= rootf l v)%nat) (corners c ds) /\ Forall (fun v => (rootf l v <= rootf l c + low ds l + 1)%nat) (corners c ds)
    /\ Exists (fun v => rootf l v = rootf l c + low ds l)%nat (corners c ds) /\ Exists (fun v => rootf l v = rootf l c + low ds l + 1)%nat (corners c ds).
  Proof.
    intros Lc H Hl. destruct (Hslab ds l H Hl) as (F & E1 & E2). rewrite Forall_forall in F. rewrite Exists_exists in E1, E2. rewrite !Forall_forall, !Exists_exists. split; [|split; [|split]].
    - intros v Hv. apply in_map_iff in Hv as (o & <- & Ho). rewrite rootf_add by (rewrite Lc; symmetry; eauto). specialize (F o Ho). lia.
    - intros v Hv. apply in_map_iff in Hv as (o & <- & Ho). rewrite rootf_add by (rewrite Lc; symmetry; eauto). specialize (F o Ho). lia.
    - destruct E1 as (o & Ho & E). exists (add_tuples c o). split; [now apply in_map|]. rewrite rootf_add by (rewrite Lc; symmetry; eauto). lia.
    - destruct E2 as (o & Ho & E). exists (add_tuples c o). split; [now apply in_map|]. rewrite rootf_add by (rewrite Lc; symmetry; eauto). lia.
  Qed.
  Lemma roots_avg n w V w' V' x l : (1 <= n)%nat -> Forall (fun v => length v = d) V -> Forall (fun v => length v = d) V' -> combination d w (map (node_position n) V) x -> combination d w' (map (node_position n) V') x ->
    In l roots -> avg w V (rootf l) = avg w' V' (rootf l).
  Proof.
    intros Hn F F' H H' Hl. apply combination_avg in H as (_ & _ & _ & E); [|easy|easy]. apply combination_avg in H' as (_ & _ & _ & E'); [|easy|easy].
    apply (same_avg d); [|now apply Hroots]. intros i Hi. now rewrite E, E'.
  Qed.
  (** Interiors do not meet other elements. *)
  Lemma alcove_disjoint n c ds c' ds' x : (1 <= n)%nat -> length c = d -> length c' = d -> In ds cands -> In ds' cands ->
    open_hull d (map (node_position n) (corners c ds)) x -> hull d (map (node_position n) (corners c' ds')) x -> c = c' /\ ds = ds'.
  Proof.
    intros Hn Lc Lc' H H' (w & W & C) (w' & W' & C'). apply Haddr; try easy. intros l Hl.
    pose proof (corners_length c ds Lc H) as F. pose proof (corners_length c' ds' Lc' H') as F'.
    pose proof (roots_avg n w _ w' _ x l Hn F F' C C' Hl) as E. 
    destruct (corners_slab c ds l Lc H Hl) as (A1 & A2 & A3 & A4). destruct (corners_slab c' ds' l Lc' H' Hl) as (B1 & B2 & _).
    apply combination_avg in C as (L & S & _); [|easy|easy]. apply combination_avg in C' as (L' & S' & _); [|easy|easy].
    pose proof (avg_gt w _ _ _ L W A1 A4) as G1. pose proof (avg_lt w _ _ _ L W A2 A3) as G2. pose proof (avg_ge w' _ _ _ L' W' B1) as G3. pose proof (avg_le w' _ _ _ L' W' B2) as G4.
    rewrite S, S', Rmult_1_r in *. rewrite E in *. set (q := avg w' _ _) in *. clearbody q.
    assert (X1 : INR (rootf l c + low ds l) < INR (rootf l c' + low ds' l + 1)) by lra. assert (X2 : INR (rootf l c' + low ds' l) < INR (rootf l c + low ds l + 1)) by lra.
    apply INR_lt in X1, X2. lia.
  Qed.
  (** A vertex of one element that carries weight of a common point is a vertex of the other. *)
  Lemma alcove_carrier n c ds c' ds' x w : (1 <= n)%nat -> length c = d -> length c' = d -> In ds cands -> In ds' cands -> Forall (Rle 0) w ->
    combination d w (map (node_position n) (corners c ds)) x -> hull d (map (node_position n) (corners c' ds')) x ->
    forall j, (j < length w)%nat -> 0 < nth j w 0 -> In (nth j (corners c ds) []) (corners c' ds').
  Proof.
    intros Hn Lc Lc' H H' W C (w' & W' & C') j Hj Hp. 
    pose proof (corners_length c ds Lc H) as F. pose proof (corners_length c' ds' Lc' H') as F'. pose proof C as C0. pose proof C' as C0'.
    apply combination_avg in C as (L & S & _); [|easy|easy]. apply combination_avg in C' as (L' & S' & _); [|easy|easy].
    set (v := nth j (corners c ds) []). assert (Hv : In v (corners c ds)) by (apply nth_In; now rewrite <- L). 
    apply Hvert; try easy. { rewrite Forall_forall in F. now apply F. }
    intros l Hl. pose proof (roots_avg n w _ w' _ x l Hn F F' C0 C0' Hl) as E.
    destruct (corners_slab c ds l Lc H Hl) as (A1 & A2 & _ & _). destruct (corners_slab c' ds' l Lc' H' Hl) as (B1 & B2 & _).
    pose proof (avg_ge w _ _ _ L W A1) as G1. pose proof (avg_le w _ _ _ L W A2) as G2. pose proof (avg_ge w' _ _ _ L' W' B1) as G3. pose proof (avg_le w' _ _ _ L' W' B2) as G4.
    pose proof (carrier_top w _ _ _ L W A2) as K1. pose proof (carrier_bottom w _ _ _ L W A1) as K2. rewrite S, S', Rmult_1_r in *. rewrite E in *. 
    rewrite Forall_forall in A1, A2. specialize (A1 v Hv). specialize (A2 v Hv).
    set (k := (rootf l c + low ds l)%nat) in *. set (k' := (rootf l c' + low ds' l)%nat) in *. set (q := avg w' _ _) in *. clearbody q k k'.
    destruct (Nat.lt_trichotomy k k') as [X|[X|X]]; [|subst; lia|].
    - assert (X' : (k + 1 <= k')%nat) by lia. apply le_INR in X'. assert (Q : q = INR (k + 1)) by lra. specialize (K1 Q j Hj Hp). fold v in K1. assert (Y : INR k' <= INR (k + 1)) by lra. apply INR_le in Y. lia.
    - assert (X' : (k' + 1 <= k)%nat) by lia. apply le_INR in X'. assert (Q : q = INR k) by lra. specialize (K2 Q j Hj Hp). fold v in K2. assert (Y : INR k <= INR (k' + 1)) by lra. apply INR_le in Y. lia.
  Qed.
  (** Elements determine their alcove. *)
  Lemma corners_inj c c' ds ds' : length c = d -> length c' = d -> In ds cands -> In ds' cands -> corners c ds = corners c' ds' -> c = c' /\ ds = ds'.
  Proof.
    intros Lc Lc' H H' E. apply Haddr; try easy. intros l Hl.
    destruct (corners_slab c ds l Lc H Hl) as (A1 & A2 & A3 & A4). destruct (corners_slab c' ds' l Lc' H' Hl) as (B1 & B2 & B3 & B4). rewrite E in *.
    rewrite Forall_forall in A1, A2, B1, B2. rewrite Exists_exists in A3, A4, B3, B4. destruct A3 as (v & Hv & A3). destruct A4 as (u & Hu & A4). destruct B3 as (v' & Hv' & B3). destruct B4 as (u' & Hu' & B4).
    specialize (A1 v' Hv'). specialize (A2 u' Hu'). specialize (B1 v Hv). specialize (B2 u Hu). lia.
  Qed.
  Context (n : nat) (Hn : (1 <= n)%nat) (nts : list (list nat)) (Hnts : simplex_lattice d n nts).
  Context (Hnd : NoDup cands) (Hne : forall ds, In ds cands -> ds <> []).
  Definition mesh : list (list nat) := flat_map (fun c => flat_map (found nts c) cands) nts.
  Lemma nts_length c : In c nts -> length c = d.
  Proof. intros H. now apply (proj2 Hnts) in H. Qed.
  Lemma mesh_vertices c ds e : element_at nts c ds = Ok e -> element_vertices n nts e = map (node_position n) (corners c ds).
  Proof. intros E. destruct (element_corners nts c ds e E) as (<- & _). unfold element_vertices. now rewrite map_map. Qed.
  Lemma mesh_inj c ds c' ds' e : In c nts -> In c' nts -> In ds cands -> In ds' cands -> element_at nts c ds = Ok e -> element_at nts c' ds' = Ok e -> c = c' /\ ds = ds'.
  Proof. intros Hc Hc' H H' E E'. destruct (element_corners nts c ds e E) as (E1 & _). destruct (element_corners nts c' ds' e E') as (E2 & _). apply corners_inj; try easy; [now apply nts_length|now apply nts_length|congruence]. Qed.
  Lemma mesh_nodup : NoDup mesh.
  Proof.
    apply NoDup_flat_map; [apply Hnts| |].
    - intros c Hc. apply NoDup_flat_map; [easy| |].
      + intros ds _. unfold found. destruct (element_at nts c ds); [repeat constructor; easy|constructor].
      + intros ds ds' e H H' X X'. unfold found in *. destruct (element_at nts c ds) eqn:E; [|easy]. destruct (element_at nts c ds') eqn:E'; [|easy]. destruct X as [->|[]]. destruct X' as [->|[]]. now apply (mesh_inj c ds c ds' e).
    - intros c c' e Hc Hc' X X'. apply in_flat_map in X as (ds & H & X). apply in_flat_map in X' as (ds' & H' & X'). unfold found in *. destruct (element_at nts c ds) eqn:E; [|easy]. destruct (element_at nts c' ds') eqn:E'; [|easy]. destruct X as [->|[]]. destruct X' as [->|[]]. now apply (mesh_inj c ds c' ds' e).
  Qed.
  Lemma mesh_disjoint k l x : k <> l -> (k < length mesh)%nat -> (l < length mesh)%nat ->
    open_hull d (element_vertices n nts (nth k mesh [])) x -> hull d (element_vertices n nts (nth l mesh [])) x -> False.
  Proof.
    intros N Hk Hl A B. pose proof (nth_In mesh [] Hk) as Ik. pose proof (nth_In mesh [] Hl) as Il. apply in_result in Ik as (c & ds & Hc & Hd & E). apply in_result in Il as (c' & ds' & Hc' & Hd' & E').
    rewrite (mesh_vertices _ _ _ E) in A. rewrite (mesh_vertices _ _ _ E') in B. pose proof (nts_length c Hc) as Lc. pose proof (nts_length c' Hc') as Lc'.
    destruct (alcove_disjoint n c ds c' ds' x Hn Lc Lc' Hd Hd' A B) as [-> ->]. apply N. apply (proj1 (NoDup_nth mesh []) mesh_nodup k l Hk Hl). congruence.
  Qed.
  Lemma mesh_conforming e e' x : In e mesh -> In e' mesh -> hull d (element_vertices n nts e) x -> hull d (element_vertices n nts e') x ->
    hull d (element_vertices n nts (filter (fun i => existsb (Nat.eqb i) e') e)) x.
  Proof.
    intros I I' (w & W & A) B. apply in_result in I as (c & ds & Hc & Hd & E). apply in_result in I' as (c' & ds' & Hc' & Hd' & E').
    pose proof (nts_length c Hc) as Lc. pose proof (nts_length c' Hc') as Lc'. unfold element_vertices at 1. unfold element_vertices in A. apply restrict with (w := w); [easy|easy|].
    intros j a Hj Hp. destruct (element_corners nts c ds e E) as (C1 & C2 & C3). destruct (element_corners nts c' ds' e' E') as (C1' & C2' & C3').
    assert (A' : combination d w (map (node_position n) (corners c ds)) x) by (rewrite <- C1, map_map; exact A). rewrite (mesh_vertices _ _ _ E') in B.
    assert (Hjw : (j < length w)%nat). { destruct A as (L & _). rewrite L, map_length. apply nth_error_Some. congruence. }
    pose proof (alcove_carrier n c ds c' ds' x w Hn Lc Lc' Hd Hd' W A' B j Hjw Hp) as X. rewrite <- C1, <- C1' in X.
    assert (EJ : nth j (map (fun i => nth i nts []) e) [] = nth a nts []).
    { assert (Hje : (j < length e)%nat) by (apply nth_error_Some; congruence). rewrite (nth_indep _ [] (nth 0 nts [])) by (now rewrite map_length). rewrite (map_nth (fun i => nth i nts [])). f_equal. now apply nth_error_nth. }
    rewrite EJ in X. apply in_map_iff in X as (b & Eb & Hb). apply existsb_exists. exists b. split; [easy|]. apply Nat.eqb_eq. symmetry.
    apply (proj1 (NoDup_nth nts []) (proj1 Hnts)); [|  |easy].
    - rewrite Forall_forall in C2'. now apply C2'.
    - rewrite Forall_forall in C2. apply C2. eapply nth_error_In; eauto.
  Qed.
  (** Covering, from a covering in lattice coordinates. *)
  Context (Hcover : forall y, length y = d -> Forall (Rle 0) y -> list_sum y <= INR n -> exists c ds w, length c = d /\ In ds cands /\ (forall o, In o ds -> (total c + total o <= n)%nat)
     /\ length w = length ds /\ Forall (Rle 0) w /\ list_sum w = 1 /\ forall i, (i < d)%nat -> avg w (corners c ds) (fun v => nth i v 0%nat) = nth i y 0).
  Lemma sum_map_affine x a b : list_sum (map (fun c => (c + a) * b) x) = (list_sum x + INR (length x) * a) * b.
  Proof. induction x as [|c x IH]; [cbn; ring|]. cbn [map list_sum fold_right length]. unfold list_sum in *. rewrite IH, S_INR. ring. Qed.
  Lemma mesh_cover x : in_simplex d x -> exists e, In e mesh /\ hull d (element_vertices n nts e) x.
  Proof.
    intros (Lx & F & S). assert (0 < INR n) by (apply lt_0_INR; lia). destruct (Hcover (map (fun c => (c + 1) * (INR n / 2)) x)) as (c & ds & w & Lc & Hd & Hin & Lw & W & Sw & E).
    - now rewrite map_length.
    - apply Forall_forall. intros y Hy. apply in_map_iff in Hy as (z & <- & Hz). rewrite Forall_forall in F. specialize (F z Hz). cbn beta in F. nra.
    - rewrite sum_map_affine, Lx. nra.
    - assert (Hl : forall o, In o ds -> length c = length o) by (intros o Ho; rewrite Lc; symmetry; eauto).
      destruct (element_exists nts c ds) as (e & Ee). { intros o Ho. apply (proj2 Hnts). rewrite add_length, total_add by auto. split; [easy|]. now apply Hin. }
      exists e. split.
      + apply in_result. exists c, ds. split; [|easy]. apply (proj2 Hnts). split; [easy|]. destruct ds as [|o ds']; [now destruct (Hne [] Hd)|]. specialize (Hin o ltac:(now left)). lia.
      + rewrite (mesh_vertices _ _ _ Ee). exists w. split; [easy|]. apply avg_combination; try easy.
        * now apply corners_length.
        * unfold corners. now rewrite map_length.
        * intros i Hi. rewrite E by easy. rewrite (nth_indep _ 0 ((0 + 1) * (INR n / 2))) by (now rewrite map_length, Lx). rewrite (map_nth (fun c => (c + 1) * (INR n / 2))). unfold Rdiv. ring.
  Qed.
  Lemma mesh_inside e x : In e mesh -> hull d (element_vertices n nts e) x -> in_simplex d x.
  Proof.
    intros I (w & W & C). apply in_result in I as (c & ds & Hc & Hd & E). pose proof (nts_length c Hc) as Lc. pose proof (element_in nts c ds e E) as HI. rewrite (mesh_vertices _ _ _ E) in C.
    pose proof (corners_length c ds Lc Hd) as F. apply combination_avg in C as (L & S & Lx & EC); [|easy|easy]. assert (P : 0 < INR n) by (apply lt_0_INR; lia).
    split; [easy|]. split.
    - apply Forall_forall. intros z Hz. apply (In_nth _ _ 0) in Hz as (i & Hi & <-). rewrite Lx in Hi. specialize (EC i Hi).
      pose proof (avg_ge w (corners c ds) (fun v => nth i v 0%nat) 0 L W) as G. cbn [INR] in G. assert (0 * list_sum w <= avg w (corners c ds) (fun v => nth i v 0%nat)). { apply G. apply Forall_forall. intros; lia. }
      assert (0 <= (nth i x 0 + 1) * INR n / 2) by lra. assert (0 <= nth i x 0 + 1); [|lra]. apply Rmult_le_reg_r with (INR n); lra.
    - assert (T : avg w (corners c ds) (rootf (seq 0 d)) <= INR n * list_sum w).
      { apply avg_le; [easy|easy|]. apply Forall_forall. intros v Hv. apply in_map_iff in Hv as (o & <- & Ho). specialize (HI o Ho). apply (proj2 Hnts) in HI as (Lv & Tv). unfold rootf. 
        replace (map (fun i => nth i (add_tuples c o) 0%nat) (seq 0 d)) with (add_tuples c o); [easy|]. clear -Lv. rewrite <- Lv. set (v := add_tuples c o). clearbody v.
        apply (nth_ext _ _ 0%nat 0%nat); [now rewrite map_length, seq_length|]. intros k Hk. rewrite (nth_indep (map _ _) 0%nat (nth 0 v 0%nat)) by (now rewrite map_length, seq_length). rewrite (map_nth (fun i => nth i v 0%nat)), seq_nth by easy. easy. }
      assert (Q : forall m, (m <= d)%nat -> avg w (corners c ds) (rootf (seq 0 m)) = (list_sum (firstn m x) + INR m) * INR n / 2).
      { induction m as [|m IH]; intros Hm. { cbn. change (avg w (corners c ds) (fun _ => 0%nat) = (0 + 0) * INR n / 2). rewrite avg_zero. field. }
        rewrite seq_S. assert (ER : forall v, rootf (seq 0 m ++ [m]) v = (rootf (seq 0 m) v + nth m v 0)%nat). { intros v. unfold rootf, total. rewrite map_app, fold_right_app. cbn. rewrite Nat.add_0_r. generalize (map (fun i => nth i v 0%nat) (seq 0 m)). induction l; cbn; lia. }
        transitivity (avg w (corners c ds) (fun v => rootf (seq 0 m) v + nth m v 0)%nat). { unfold avg. f_equal. apply map_ext. intros [a v]. cbn [Nat.add]. now rewrite ER. }
        rewrite avg_plus, IH, EC by lia. rewrite S_INR.
        assert (EF : list_sum (firstn (Datatypes.S m) x) = list_sum (firstn m x) + nth m x 0).
        { assert (Hm' : (m < length x)%nat) by lia. clear - Hm'. revert x Hm'. induction m as [|m IH]; intros [|a x] Hm; cbn in Hm; try lia; [cbn; lra|]. cbn [firstn list_sum fold_right nth] in *. unfold list_sum in *. cbn [firstn fold_right] in *. rewrite IH by lia. ring. }
        rewrite EF. field. }
      rewrite Q in T by lia. rewrite <- Lx, firstn_all, Lx, S in T. assert (list_sum x + INR d <= 2); [|lra]. apply Rmult_le_reg_r with (INR n); lra.
  Qed.
End Alcoves.
