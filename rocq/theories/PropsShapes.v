(** * Properties C07, C08: constructors of shapes and function spaces. *)
From Coq Require Import List Arith Bool Reals Lia.
From Verif Require Import Py PyToolsModel ModelShapes ModelSpaces ModelNodes
  SpecIndex ProofShapes ProofSpaces.
Import ListNotations.

(** ** C07.  [built s]: s is obtained by nesting the public constructors in any
    way.  [factor_dims s]: dimensions of the simplices s is a product of. *)

(** Whatever the nesting, the result is a simplex or a flat product of simplices
    of which at most one is not a segment. *)
Theorem C07_flat : forall s, built s ->
  (exists d, s = Simplex d)
  \/ (exists c ds, s = TPShape c (total ds) (map Simplex ds)
        /\ length ds <= length (filter (fun d => d =? 1) ds) + 1).
Proof. exact built_is_flat. Qed.
Print Assumptions C07_flat.

Theorem C07_dims : forall bases s, Forall built bases -> mk_TensorProductShape bases = Ok s ->
  built s
  /\ shape_dim s = total (map shape_dim bases)
  /\ nvertices s = product_of (map nvertices bases).
Proof. exact c07_dims. Qed.
Print Assumptions C07_dims.

(** Which lists of factors are accepted, and the flattened result. *)
Theorem C07_accepts : forall bases, Forall built bases -> length bases <> 1 ->
  let ds := concat (map factor_dims bases) in
  (at_most_one_nonsegment ds -> mk_TensorProductShape bases = Ok (TPShape CTensorProduct (total ds) (map Simplex ds)))
  /\ (~ at_most_one_nonsegment ds -> mk_TensorProductShape bases = Err NotImplementedE).
Proof. exact c07_accepts. Qed.
Print Assumptions C07_accepts.

(** A single factor is returned as it is, except for a hypercube: see the finding
    below. *)
Theorem C07_single_simplex : forall d, mk_TensorProductShape [Simplex d] = Ok (Simplex d).
Proof. exact c07_single. Qed.
Print Assumptions C07_single_simplex.
Theorem C07_single_product : forall dim bs, built (TPShape CTensorProduct dim bs) ->
  mk_TensorProductShape [TPShape CTensorProduct dim bs] = Ok (TPShape CTensorProduct dim bs).
Proof. exact c07_single_tp. Qed.
Print Assumptions C07_single_product.

Theorem C07_vertices : forall s, built s ->
  exists p, unit_vertices_for_shape s = Ok p
    /\ pts_dim p = shape_dim s
    /\ length (pts_cols p) = nvertices s
    /\ Forall (fun c => length c = shape_dim s) (pts_cols p)
    /\ NoDup (pts_cols p)
    /\ Forall (Forall (fun x => x = 1%R \/ x = (-1)%R)) (pts_cols p).
Proof. exact c07_vertices. Qed.
Print Assumptions C07_vertices.

Theorem C07_nfaces : forall c ds,
  at_most_one_nonsegment ds -> Forall (fun d => 1 <= d) ds -> 2 <= length ds ->
  nfaces (TPShape c (total ds) (map Simplex ds)) = Ok (total (map (fun d => d + 1) ds)).
Proof. exact c07_nfaces. Qed.
Print Assumptions C07_nfaces.

Theorem C07_hypercube : forall d, exists s, mk_Hypercube d = Ok s
  /\ shape_dim s = d /\ nvertices s = 2 ^ d /\ (1 <= d -> nfaces s = Ok (2 * d)).
Proof.
  intros d. eexists. split; [apply mk_hypercube_eq|]. apply c07_cube_counts. apply mk_hypercube_eq.
Qed.
Print Assumptions C07_hypercube.

(** Findings.  Collapsing a single factor fails for hypercubes of dimension /= 1;
    the face count is wrong if a factor is zero-dimensional (the product of a
    point and a segment is a segment with two faces, the code says three) and
    fails for the zero-dimensional hypercube. *)
Theorem C07_single_hypercube_refuted :
  exists s, mk_Hypercube 2 = Ok s /\ mk_TensorProductShape [s] = Err TypeError.
Proof. eexists. split; reflexivity. Qed.
Theorem C07_nfaces_point_factor_refuted :
  exists s, mk_TensorProductShape [Simplex 0; Simplex 1] = Ok s /\ shape_dim s = 1 /\ nfaces s = Ok 3.
Proof. eexists. split; [reflexivity|]. split; reflexivity. Qed.
Theorem C07_nfaces_hypercube0_refuted :
  exists s, mk_Hypercube 0 = Ok s /\ nfaces s = Err ValueError.
Proof. eexists. split; reflexivity. Qed.

(** A nested example: a prism times a segment, built from nested products. *)
Example C07_example :
  exists sq s, mk_Hypercube 2 = Ok sq /\ mk_TensorProductShape [sq; Simplex 2] = Ok s
    /\ Forall built [sq; Simplex 2]
    /\ s = TPShape CTensorProduct 4 [Simplex 1; Simplex 1; Simplex 2]
    /\ shape_dim s = 4 /\ nvertices s = 12 /\ nfaces s = Ok 7.
Proof.
  eexists _, _. split; [reflexivity|]. split; [reflexivity|].
  split; [|repeat split]. repeat constructor. apply (built_cube 2). reflexivity.
Qed.
Example C07_example_unsupported :
  mk_TensorProductShape [Simplex 2; Simplex 2] = Err NotImplementedE.
Proof. reflexivity. Qed.

(** ** C08.  [space_factors s]: the factor spaces (the space itself if it is a
    PN). *)
Theorem C08_flat : forall s, built_space s ->
  Forall (fun f => exists d n, f = PN d n) (space_factors s).
Proof. exact built_space_flat. Qed.
Print Assumptions C08_flat.

Theorem C08_flattens : forall bases s, mk_TensorProductSpace bases = Ok s ->
  space_factors s = concat (map space_factors bases).
Proof. exact mk_tps_factors. Qed.
Print Assumptions C08_flattens.

Theorem C08_succeeds : forall bases, length bases <> 1 ->
  mk_TensorProductSpace bases = Ok (TPSpace STensorProduct (concat (map space_factors bases))).
Proof. exact c08_several. Qed.
Print Assumptions C08_succeeds.

Theorem C08_dims : forall bases s, mk_TensorProductSpace bases = Ok s ->
  spatial_dim s = total (map spatial_dim bases) /\ space_dim s = product_of (map space_dim bases).
Proof. exact c08_dims. Qed.
Print Assumptions C08_dims.

Theorem C08_QN : forall d n,
  spatial_dim (mk_QN d n) = d /\ space_dim (mk_QN d n) = (n + 1) ^ d
  /\ (1 <= d -> space_order (mk_QN d n) = Ok n).
Proof. exact c08_qn. Qed.
Print Assumptions C08_QN.

(** [ns] are the requested orders per factor: the integer repeated, or the given
    tuple (tuples are for tensor-product shapes). *)
Theorem C08_space_for_shape : forall s (order : order_arg) ns, built s ->
  (match order with
   | OInt n => ns = repeat n (length (factor_dims s))
   | OTuple l => ns = l /\ (exists c dim bs, s = TPShape c dim bs)
   end) ->
  (length ns = length (factor_dims s) ->
   exists r, space_for_shape s order = Ok r
     /\ spatial_dim r = shape_dim s
     /\ space_factors r = map (fun p => PN (fst p) (snd p)) (combine (factor_dims s) ns))
  /\ (length ns <> length (factor_dims s) -> space_for_shape s order = Err ValueError).
Proof. exact c08_space_for_shape. Qed.
Print Assumptions C08_space_for_shape.

Theorem C08_simplex_order_tuple : forall d ns, space_for_shape (Simplex d) (OTuple ns) = Err AssertionE.
Proof. reflexivity. Qed.
Print Assumptions C08_simplex_order_tuple.

(** The order of a tensor product: that of its factors if they agree; products with
    different orders have none (AttributeError), the empty product neither. *)
Theorem C08_order : forall dns,
  (forall n, dns <> [] -> (forall p, In p dns -> snd p = n) ->
     space_order (TPSpace STensorProduct (map (fun p => PN (fst p) (snd p)) dns)) = Ok n)
  /\ ((exists p p', In p dns /\ In p' dns /\ snd p <> snd p') ->
     space_order (TPSpace STensorProduct (map (fun p => PN (fst p) (snd p)) dns)) = Err AttributeError)
  /\ space_order (TPSpace STensorProduct []) = Err ValueError.
Proof.
  intros dns. split; [|split; [|reflexivity]].
  - intros n Hne HA. cbn [space_order].
    assert (EM : mapM space_order (map (fun p => PN (fst p) (snd p)) dns) = Ok (map snd dns)).
    { clear. induction dns as [|p dns IH]; [reflexivity|]. cbn [map mapM]. now rewrite IH. }
    rewrite EM. cbn [bind]. destruct dns as [|p dns]; [easy|]. cbn [map is_single_valued bind].
    replace (forallb (Nat.eqb (snd p)) (map snd dns)) with true.
    + cbn [space_order]. f_equal. apply HA. now left.
    + symmetry. apply forallb_forall. intros x Hx. apply in_map_iff in Hx. destruct Hx as (r & <- & Hr). apply Nat.eqb_eq. rewrite (HA p), (HA r); auto; [now right|now left].
  - intros (p & p' & Hp & Hp' & N). cbn [space_order].
    assert (EM : mapM space_order (map (fun p => PN (fst p) (snd p)) dns) = Ok (map snd dns)).
    { clear. induction dns as [|r dns IH]; [reflexivity|]. cbn [map mapM]. now rewrite IH. }
    rewrite EM. cbn [bind]. destruct dns as [|r dns]; [easy|]. cbn [map is_single_valued bind].
    destruct (forallb (Nat.eqb (snd r)) (map snd dns)) eqn:F; [|reflexivity]. exfalso.
    rewrite forallb_forall in F.
    assert (G : forall q, In q (r :: dns) -> snd q = snd r).
    { intros q [<-|Hq]; [reflexivity|]. symmetry. apply Nat.eqb_eq, F. now apply in_map. }
    apply N. rewrite (G p Hp), (G p' Hp'). reflexivity.
Qed.
Print Assumptions C08_order.
Example C08_order_example : space_order (TPSpace STensorProduct [PN 1 3; PN 2 3]) = Ok 3
  /\ space_order (TPSpace STensorProduct [PN 1 3; PN 2 2]) = Err AttributeError.
Proof. split; reflexivity. Qed.

(** Findings. *)
Theorem C08_single_QN_refuted : forall n, mk_TensorProductSpace [mk_QN 2 n] = Err TypeError.
Proof. reflexivity. Qed.
Theorem C08_QN0_order_refuted : forall n, space_order (mk_QN 0 n) = Err IndexError.
Proof. reflexivity. Qed.

Example C08_example :
  exists s, mk_TensorProductSpace [mk_QN 2 3; PN 2 2] = Ok s
    /\ built_space s
    /\ s = TPSpace STensorProduct [PN 1 3; PN 1 3; PN 2 2]
    /\ spatial_dim s = 4 /\ space_dim s = 96.
Proof.
  eexists. split; [reflexivity|]. split; [|repeat split].
  apply (built_tps [mk_QN 2 3; PN 2 2]); [|reflexivity]. constructor; [apply built_qn|]. repeat constructor.
Qed.
Example C08_example_orders :
  space_for_shape (TPShape CTensorProduct 3 [Simplex 1; Simplex 2]) (OTuple [4; 2])
    = Ok (TPSpace STensorProduct [PN 1 4; PN 2 2])
  /\ space_for_shape (TPShape CTensorProduct 3 [Simplex 1; Simplex 2]) (OTuple [4; 2; 1]) = Err ValueError.
Proof. split; reflexivity. Qed.
