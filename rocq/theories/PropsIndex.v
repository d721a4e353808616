(** * Properties C01-C04: index sets, tensor-product ordering, reshaping. *)
From Coq Require Import List Arith ZArith Factorial Reals Lia.
From Verif Require Import Py PyToolsModel ModelNd ModelShapes ModelSpaces ModelNodes ModelReshape
  SpecIndex EnumFacts ProofNodeTuples ProofTPNodes ProofReshape.
Import ListNotations.

(** ** C01 *)
Theorem C01_node_tuples_pn : forall d n,
  exists l, node_tuples_for_space (PN d n) = Ok l
    /\ NoDup l
    /\ (forall t, In t l <-> length t = d /\ total t <= n)
    /\ length l = space_dim (PN d n)
    /\ length l * (fact d * fact n) = fact (n + d).
Proof. exact c01_proof. Qed.
Print Assumptions C01_node_tuples_pn.

Example C01_example :
  node_tuples_for_space (PN 2 2) = Ok [[0; 0]; [1; 0]; [2; 0]; [0; 1]; [1; 1]; [0; 2]].
Proof. reflexivity. Qed.

(** ** C02 *)
Theorem C02_node_tuples_tp : forall c bases,
  exists tss l,
    Forall2 (fun b ts => node_tuples_for_space b = Ok ts) bases tss
    /\ node_tuples_for_space (TPSpace c bases) = Ok l
    /\ length l = space_dim (TPSpace c bases)
    /\ length l = product_of (map (@length _) tss)
    /\ NoDup l
    /\ (forall t, In t l <-> exists parts, Forall2 (fun p ts => In p ts) parts tss /\ t = concat parts)
    /\ (forall digits, legal_digits (map (@length _) tss) digits ->
          exists parts, selects tss digits parts
            /\ nth_error l (mixed_radix (map (@length _) tss) digits) = Some (concat parts)).
Proof. exact c02_proof. Qed.
Print Assumptions C02_node_tuples_tp.

(** A product of a triangle space and a segment space; digits (2, 1) name
    position 2 + 3 * 1. *)
Example C02_example :
  node_tuples_for_space (TPSpace STensorProduct [PN 2 1; PN 1 1])
    = Ok [[0; 0; 0]; [1; 0; 0]; [0; 1; 0]; [0; 0; 1]; [1; 0; 1]; [0; 1; 1]]
  /\ legal_digits [3; 2] [2; 1] /\ mixed_radix [3; 2] [2; 1] = 5.
Proof. repeat split; repeat constructor. Qed.

(** ** C03.  [set_dims s (d, n)]: the nodeset has shape (d, n), or shape (n,)
    and d = 1; [set_entry s r j] is coordinate r of its j-th node.  Together with
    the shape, the entry law determines every column. *)
Theorem C03_tensor_product_nodes : forall (A : Type) (junk : list nat -> A) sets dns,
  Forall2 set_dims sets dns ->
  exists a,
    tensor_product_nodes junk (inr sets) None = Ok a
    /\ (total (map fst dns) <> 0 ->
        nd_shape a = [total (map fst dns); product_of (map snd dns)])
    /\ (total (map fst dns) = 0 -> nd_shape a = [0; 1])
    /\ (forall k s d_k n_k r digits j,
          nth_error sets k = Some s -> nth_error dns k = Some (d_k, n_k) ->
          r < d_k -> legal_digits (map snd dns) digits -> nth_error digits k = Some j ->
          nd_at a [total (map fst (firstn k dns)) + r; mixed_radix (map snd dns) digits]
          = set_entry s r j).
Proof. exact @c03_proof. Qed.
Print Assumptions C03_tensor_product_nodes.

(** Every column index is the number of exactly one digit list, so every
    combination of columns occurs exactly once. *)
Theorem C03_columns_are_combinations : forall radices,
  (forall digits, legal_digits radices digits -> mixed_radix radices digits < product_of radices)
  /\ (forall k, k < product_of radices ->
        exists digits, legal_digits radices digits /\ mixed_radix radices digits = k
          /\ forall digits', legal_digits radices digits' -> mixed_radix radices digits' = k -> digits' = digits).
Proof.
  intros radices. split.
  - intros digits H. rewrite mixed_radix_ravelF. now apply ravelF_lt.
  - intros k Hk. exists (unravelF radices k). rewrite mixed_radix_ravelF.
    split; [now apply unravelF_valid|]. split; [now apply ravelF_unravelF|].
    intros digits' H E. rewrite mixed_radix_ravelF in E. subst k. symmetry. now apply unravelF_ravelF.
Qed.
Print Assumptions C03_columns_are_combinations.

(** The form with an integer first argument. *)
Theorem C03_tensor_product_nodes_int : forall (A : Type) (junk : list nat -> A) dims n1 size,
  nd_shape n1 = [size] -> 0 < dims ->
  exists a,
    tensor_product_nodes junk (inl dims) (Some n1) = Ok a
    /\ nd_shape a = [dims; size ^ dims]
    /\ (forall r digits j, r < dims -> legal_digits (repeat size dims) digits ->
          nth_error digits r = Some j ->
          nd_at a [r; mixed_radix (repeat size dims) digits] = nd_at n1 [j]).
Proof. exact @c03_int_proof. Qed.
Print Assumptions C03_tensor_product_nodes_int.

(** A 2-d nodeset with three nodes and a 1-d one with two nodes. *)
Example C03_example :
  Forall2 set_dims
    [nd_of_columns 0 2 [[10; 11]; [20; 21]; [30; 31]]; mkNd [2] (fun i => hd 0 i)]
    [(2, 3); (1, 2)]
  /\ option_map nd_columns
       (match tensor_product_nodes (fun _ => 99)
                (inr [nd_of_columns 0 2 [[10; 11]; [20; 21]; [30; 31]]; mkNd [2] (fun i => hd 0 i)]) None
        with Ok a => Some a | Err _ => None end)
     = Some [[10; 11; 0]; [20; 21; 0]; [30; 31; 0]; [10; 11; 1]; [20; 21; 1]; [30; 31; 1]].
Proof. split; [repeat constructor; (left; reflexivity) || (right; split; reflexivity)|reflexivity]. Qed.

(** ** C04.  [names_axis axis pos n]: axis is [pos] or [pos - n]. *)
Theorem C04_reshape : forall (A : Type) c bases (ary : ndarray A) pre post axis,
  nd_shape ary = pre ++ space_dim (TPSpace c bases) :: post ->
  names_axis axis (length pre) (length (nd_shape ary)) ->
  exists a, reshape_array_for_tensor_product_space (TPSpace c bases) ary axis = Ok a
    /\ nd_shape a = pre ++ map space_dim bases ++ post
    /\ (forall i1 digits i2, legal_digits pre i1 -> legal_digits (map space_dim bases) digits ->
          legal_digits post i2 ->
          nd_at a (i1 ++ digits ++ i2)
          = nd_at ary (i1 ++ mixed_radix (map space_dim bases) digits :: i2)).
Proof.
  intros A c bases ary pre post axis H H'.
  destruct (reshape_ok c bases ary pre post axis H H') as (a & E & S & V).
  exists a. split; [exact E|]. split; [exact S|]. intros. rewrite mixed_radix_ravelF. now apply V.
Qed.
Print Assumptions C04_reshape.

Theorem C04_unreshape : forall (A : Type) c bases (ary : ndarray A) pre post axis,
  nd_shape ary = pre ++ map space_dim bases ++ post ->
  names_axis axis (length pre) (length pre + 1 + length post) ->
  exists a, unreshape_array_for_tensor_product_space (TPSpace c bases) ary axis = Ok a
    /\ nd_shape a = pre ++ space_dim (TPSpace c bases) :: post
    /\ (forall i1 digits i2, legal_digits pre i1 -> legal_digits (map space_dim bases) digits ->
          legal_digits post i2 ->
          nd_at a (i1 ++ mixed_radix (map space_dim bases) digits :: i2)
          = nd_at ary (i1 ++ digits ++ i2)).
Proof.
  intros A c bases ary pre post axis H H'.
  destruct (unreshape_ok c bases ary pre post axis H H') as (a & E & S & V).
  exists a. split; [exact E|]. split; [exact S|]. intros. rewrite mixed_radix_ravelF. now apply V.
Qed.
Print Assumptions C04_unreshape.

Theorem C04_unreshape_reshape : forall (A : Type) c bases (ary : ndarray A) pre post axis,
  nd_shape ary = pre ++ space_dim (TPSpace c bases) :: post ->
  names_axis axis (length pre) (length (nd_shape ary)) ->
  exists a b, reshape_array_for_tensor_product_space (TPSpace c bases) ary axis = Ok a
    /\ unreshape_array_for_tensor_product_space (TPSpace c bases) a axis = Ok b
    /\ same_array b ary.
Proof. exact @roundtrip1. Qed.
Print Assumptions C04_unreshape_reshape.

Theorem C04_reshape_unreshape : forall (A : Type) c bases (ary : ndarray A) pre post axis,
  nd_shape ary = pre ++ map space_dim bases ++ post ->
  names_axis axis (length pre) (length pre + 1 + length post) ->
  exists a b, unreshape_array_for_tensor_product_space (TPSpace c bases) ary axis = Ok a
    /\ reshape_array_for_tensor_product_space (TPSpace c bases) a axis = Ok b
    /\ same_array b ary.
Proof. exact @roundtrip2. Qed.
Print Assumptions C04_reshape_unreshape.

Theorem C04_reshape_mismatch : forall (A : Type) c bases (ary : ndarray A) pre m post axis,
  nd_shape ary = pre ++ m :: post -> m <> space_dim (TPSpace c bases) ->
  names_axis axis (length pre) (length (nd_shape ary)) ->
  reshape_array_for_tensor_product_space (TPSpace c bases) ary axis = Err ValueError.
Proof. exact @reshape_len_err. Qed.
Print Assumptions C04_reshape_mismatch.

Theorem C04_unreshape_mismatch : forall (A : Type) c bases (ary : ndarray A) pre mid post axis,
  nd_shape ary = pre ++ mid ++ post -> length mid = length bases -> mid <> map space_dim bases ->
  names_axis axis (length pre) (length pre + 1 + length post) ->
  unreshape_array_for_tensor_product_space (TPSpace c bases) ary axis = Err ValueError.
Proof. exact @unreshape_shape_err. Qed.
Print Assumptions C04_unreshape_mismatch.

Theorem C04_bad_axis : forall (A : Type) c bases (ary : ndarray A) axis,
  (axis < - Z.of_nat (length (nd_shape ary)) \/ Z.of_nat (length (nd_shape ary)) <= axis)%Z ->
  reshape_array_for_tensor_product_space (TPSpace c bases) ary axis = Err ValueError.
Proof. exact @reshape_axis_err. Qed.
Print Assumptions C04_bad_axis.

(** A rank-3 array of shape (4, 6, 5), split along its middle axis, named -2. *)
Example C04_example :
  let ary := mkNd [4; 6; 5] (fun i => i) in
  let sp := TPSpace STensorProduct [PN 2 1; PN 1 1] in
  space_dim sp = 6
  /\ names_axis (-2) 1 3
  /\ option_map nd_shape
       (match reshape_array_for_tensor_product_space sp ary (-2) with Ok a => Some a | Err _ => None end)
     = Some [4; 3; 2; 5]
  /\ option_map (fun a => nd_at a [3; 2; 1; 4])
       (match reshape_array_for_tensor_product_space sp ary (-2) with Ok a => Some a | Err _ => None end)
     = Some [3; 5; 4].
Proof. split; [reflexivity|]. split; [right; reflexivity|]. split; reflexivity. Qed.
