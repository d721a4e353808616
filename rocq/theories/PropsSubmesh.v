(** * C11: submeshes of simplices *)
From Coq Require Import List Arith Bool Reals Lra Lia.
From Verif Require Import Py PyToolsModel RSum ModelShapes ModelSpaces ModelNodes ModelSubmesh SpecIndex SpecGeometry SpecSubmesh EnumFacts ProofSubmesh ProofSubmesh2 ProofSubmesh3.
Import ListNotations.
Local Open Scope R_scope.

Lemma lattice_dims d n nts : simplex_lattice d n nts -> single_valued (map (@length nat) nts) = Ok d.
Proof.
  intros (N & H). destruct nts as [|t nts].
  - exfalso. assert (X : In (repeat 0%nat d) []); [|easy]. apply H. rewrite repeat_length. split; [easy|]. assert (E : total (repeat 0%nat d) = 0%nat) by (clear; induction d; cbn in *; easy). lia.
  - assert (F : forall u, In u (t :: nts) -> length u = d) by (intros u Hu; now apply H in Hu). cbn [map single_valued]. rewrite (F t) by now left.
    assert (E : forallb (Nat.eqb d) (map (@length nat) nts) = true). { apply forallb_forall. intros k Hk. apply in_map_iff in Hk as (u & <- & Hu). apply Nat.eqb_eq. symmetry. apply F. now right. }
    now rewrite E.
Qed.
Lemma submesh_is d n nts : (1 <= d <= 3)%nat -> simplex_lattice d n nts -> submesh_for_shape (Simplex d) nts = Ok (mesh (table d) nts).
Proof.
  intros Hd H. cbn [submesh_for_shape]. unfold submesh_for_simplex. rewrite (lattice_dims d n nts H). cbn [bind]. unfold table. assert (d = 1 \/ d = 2 \/ d = 3)%nat as [-> | [-> | ->]] by lia; cbn [simplex_candidates]; apply loop_is.
Qed.
Lemma corner_volume d n c ds : (1 <= d <= 3)%nat -> (1 <= n)%nat -> length c = d -> In ds (table d) -> det d (edges (map (node_position n) (corners c ds))) = (2 / INR n) ^ d.
Proof.
  intros Hd Hn Lc H. assert (N : INR n <> 0) by (apply not_0_INR; lia). assert (d = 1 \/ d = 2 \/ d = 3)%nat as [-> | [-> | ->]] by lia; tuple_of c Lc; in_cases H;
    cbn; rewrite ?plus_INR; cbn [INR]; field; easy.
Qed.
Theorem C11_simplex : forall d n nts, (1 <= d <= 3)%nat -> (1 <= n)%nat -> simplex_lattice d n nts ->
  exists elements, submesh_for_shape (Simplex d) nts = Ok elements
    /\ length elements = (n ^ d)%nat /\ NoDup elements
    /\ (forall e, In e elements -> length e = (d + 1)%nat /\ Forall (fun i => (i < length nts)%nat) e
          /\ det d (edges (element_vertices n nts e)) = (2 / INR n) ^ d)
    /\ (forall x, in_simplex d x <-> exists e, In e elements /\ hull d (element_vertices n nts e) x)
    /\ (forall k l x, k <> l -> (k < length elements)%nat -> (l < length elements)%nat ->
          open_hull d (element_vertices n nts (nth k elements [])) x -> ~ hull d (element_vertices n nts (nth l elements [])) x)
    /\ (forall e e' x, In e elements -> In e' elements -> hull d (element_vertices n nts e) x -> hull d (element_vertices n nts e') x ->
          hull d (element_vertices n nts (filter (fun i => existsb (Nat.eqb i) e') e)) x).
Proof.
  intros d n nts Hd Hn H. exists (mesh (table d) nts). split; [now apply (submesh_is d n)|]. split; [now apply table_count|].
  pose proof (table_len d Hd) as T1. pose proof (table_roots d Hd) as T2. pose proof (table_slab d Hd) as T3. pose proof (table_addr d Hd) as T4. pose proof (table_vert d Hd) as T5. pose proof (table_nodup d Hd) as T6. pose proof (table_ne d Hd) as T7.
  split; [eapply mesh_nodup; eauto|]. split; [|split; [|split]].
  - intros e He. apply in_result in He as (c & ds & Hc & Hds & E). destruct (element_corners nts c ds e E) as (_ & F & L). split; [|split; [easy|]].
    + rewrite L. assert (d = 1 \/ d = 2 \/ d = 3)%nat as [-> | [-> | ->]] by lia; in_cases Hds; reflexivity.
    + rewrite (mesh_vertices n nts c ds e E). apply corner_volume; try easy. now apply H in Hc.
  - intros x. split.
    + intros Hx. eapply mesh_cover; eauto. assert (d = 1 \/ d = 2 \/ d = 3)%nat as [-> | [-> | ->]] by lia; [now apply cover1|now apply cover2|now apply cover3].
    + intros (e & He & Hx). eapply mesh_inside; eauto.
  - intros k l x N Hk Hl A B. eapply mesh_disjoint with (k := k) (l := l); eauto.
  - intros e e' x He He' A B. eapply mesh_conforming; eauto.
Qed.
(** Order 0: a single node and no element. *)
Theorem C11_order0 : forall d, (1 <= d <= 3)%nat -> submesh_for_shape (Simplex d) [repeat 0%nat d] = Ok [].
Proof. intros d Hd. assert (d = 1 \/ d = 2 \/ d = 3)%nat as [-> | [-> | ->]] by lia; reflexivity. Qed.
(** Other dimensions are refused. *)
Theorem C11_refused : forall d n nts, ~ (1 <= d <= 3)%nat -> simplex_lattice d n nts -> submesh_for_shape (Simplex d) nts = Err NotImplementedE.
Proof.
  intros d n nts Hd H. cbn [submesh_for_shape]. unfold submesh_for_simplex. rewrite (lattice_dims d n nts H). cbn [bind]. destruct d as [|[|[|[|d]]]]; try lia; reflexivity.
Qed.
(** node_tuples_for_space produces such lattices. *)
Theorem C11_lattice : forall d n, exists nts, node_tuples_for_space (PN d n) = Ok nts /\ simplex_lattice d n nts.
Proof. intros d n. exists (gnitsam n d). split; [reflexivity|]. split; [apply gnitsam_NoDup|]. intros t. apply gnitsam_in. Qed.
Example C11_example : submesh_for_shape (Simplex 2) [[0; 0]; [1; 0]; [2; 0]; [0; 1]; [1; 1]; [0; 2]]%nat = Ok [[0; 1; 3]; [1; 4; 3]; [1; 2; 4]; [3; 4; 5]]%nat.
Proof. reflexivity. Qed.
Print Assumptions C11_simplex.
Print Assumptions C11_order0.
Print Assumptions C11_refused.
Print Assumptions C11_lattice.
