(** * Faces: modepy/shapes.py:266-320, 433-466, 497-565

    A point is the list of its coordinates, a [(dim, npts)] array the list of its columns. *)
From Coq Require Import List Arith Bool Reals.
From Verif Require Import Py PyToolsModel RSum ModelNd ModelShapes ModelSpaces ModelNodes.
Import ListNotations.

(** shapes.py:266-284 [Face], mixed into [_SimplexFace] (:417-419) or [_HypercubeFace] (:497-513).
    [face_shape] is the face seen as a shape: [Simplex(dim)] or [Hypercube(dim)]. *)
Record face := mkFace {
  face_shape : shape;
  volume_shape : shape;
  face_index : nat;
  volume_vertex_indices : list nat;
  map_to_volume : list R -> res (list R)
}.

(** [volume_vertices[:, indices]] *)
Definition take_columns (cols : list (list R)) (indices : list nat) : res (list (list R)) := mapM (getitem cols) indices.

Local Open Scope R_scope.
Definition map2 (f : R -> R -> R) (u v : list R) : list R := map (fun '(a, b) => f a b) (combine u v).
Definition vsub (u v : list R) : list R := map2 Rminus u v.
Definition vadd (u v : list R) : list R := map2 Rplus u v.
(** [origin + einsum("ij,jk->ik", face_basis, (1 + p) / 2)] for one point p; ValueError unless p has as many
    coordinates as there are basis vectors (one-element operands, which numpy broadcasts, do not occur
    with nodes of the face's dimension). *)
Definition affine_image (dim : nat) (origin : list R) (basis : list (list R)) (p : list R) : res (list R) :=
  if (length p =? length basis)%nat
  then Ok (vadd origin (map (fun i => rsum (fun j => nth i (nth j basis []) 0 * ((1 + nth j p 0) / 2)) (length basis)) (seq 0 dim)))
  else Err ValueError.

(** shapes.py:433-444; [face_vertices[:, 0]] raises IndexError for no columns. *)
Definition simplex_face_to_vol_map (dim : nat) (face_vertices : list (list R)) (p : list R) : res (list R) :=
  if negb (length face_vertices =? dim)%nat then Err ValueError
  else
    let* origin := getitem face_vertices 0 in
    affine_image dim origin (map (fun v => vsub v origin) (skipn 1 face_vertices)) p.

(** shapes.py:447-451 *)
Definition SIMPLEX_FACES (dim : nat) : option (list (list nat)) :=
  match dim with
  | 1 => Some [[0]; [1]]
  | 2 => Some [[0; 1]; [2; 0]; [1; 2]]
  | 3 => Some [[0; 2; 1]; [0; 1; 3]; [0; 3; 2]; [1; 2; 3]]
  | _ => None
  end%nat.

(** The tuple comprehensions at shapes.py:460-466 and :559-565. *)
Definition make_faces (fshape vol : shape) (dim : nat) (to_vol : nat -> list (list R) -> list R -> res (list R))
           (vertices : points) (table : list (list nat)) : res (list face) :=
  mapM (fun '(iface, fvi) =>
          let* fv := take_columns (pts_cols vertices) fvi in
          Ok (mkFace fshape vol iface fvi (to_vol dim fv)))
       (combine (seq 0 (length table)) table).

(** shapes.py:454-466 *)
Definition faces_for_simplex (d : nat) : res (list face) :=
  match SIMPLEX_FACES d with
  | None => Err KeyError
  | Some table => make_faces (Simplex (d - 1)) (Simplex d) d simplex_face_to_vol_map (unit_vertices_for_simplex d) table
  end.

(** shapes.py:516-534 *)
Definition hypercube_face_to_vol_map (dim : nat) (face_vertices : list (list R)) (p : list R) : res (list R) :=
  if negb (length face_vertices =? 2 ^ (dim - 1))%nat then Err ValueError
  else
    let* origin := getitem face_vertices 0 in
    if (dim <=? 3)%nat
    then affine_image dim origin (map (fun v => vsub v origin) (firstn 2 (skipn 1 face_vertices))) p
    else Err NotImplementedE.

(** shapes.py:537-550 *)
Definition HYPERCUBE_FACES (dim : nat) : option (list (list nat)) :=
  match dim with
  | 1 => Some [[0]; [1]]
  | 2 => Some [[0; 1]; [3; 2]; [2; 0]; [1; 3]]
  | 3 => Some [[0; 2; 1; 3]; [4; 5; 6; 7];
               [0; 4; 2; 6]; [1; 3; 5; 7];
               [0; 1; 4; 5]; [2; 6; 3; 7]]
  | _ => None
  end%nat.

(** shapes.py:553-565; [_HypercubeFace(dim=1)] is a [_SimplexFace] (:505-509). *)
Definition faces_for_hypercube (vol : shape) : res (list face) :=
  let d := shape_dim vol in
  match HYPERCUBE_FACES d with
  | None => Err KeyError
  | Some table =>
      let* vertices := unit_vertices_for_shape vol in
      let* fshape := mk_Hypercube (d - 1) in
      make_faces fshape vol d hypercube_face_to_vol_map vertices table
  end.

(** shapes.py:323-328: [faces_for_shape] *)
Definition faces_for_shape (s : shape) : res (list face) :=
  match s with
  | Simplex d => faces_for_simplex d
  | TPShape CHypercube _ _ => faces_for_hypercube s
  | TPShape CTensorProduct _ _ => Err NotImplementedE
  end.

(** ** pymbolic's [MultiVector] (external): the Euclidean geometric algebra

    A multivector of a [dim]-dimensional space assigns a coefficient to every basis blade,
    given by the bits of a number below [2^dim]. *)
Definition multivector := nat -> R.
Definition mv_vector (v : list R) : multivector :=
  fun bits => rsum (fun i => if (bits =? 2 ^ i)%nat then nth i v 0 else 0) (length v).
Fixpoint bit_count (fuel bits : nat) : nat :=
  match fuel with O => O | S f => (bits mod 2 + bit_count f (bits / 2))%nat end.
(** sign of sorting the concatenation of two basis blades *)
Fixpoint reorder_count (fuel a b : nat) : nat :=
  match fuel with O => O | S f => (bit_count 8 (Nat.land a b) + reorder_count f (a / 2) b)%nat end.
Definition reorder_sign (a b : nat) : R := if Nat.even (reorder_count 8 (a / 2)%nat b) then 1 else - (1).
Definition mv_product (weight : nat -> nat -> bool) (dim : nat) (A B : multivector) : multivector :=
  fun bits => rsum (fun a => rsum (fun b =>
    if ((Nat.lxor a b =? bits)%nat && weight a b)%bool then reorder_sign a b * (A a * B b) else 0) (2 ^ dim)) (2 ^ dim).
(** [A ^ B] *)
Definition mv_outer := mv_product (fun a b => (Nat.land a b =? 0)%nat).
(** [A | B] *)
Definition mv_inner := mv_product (fun a b => ((Nat.land a b =? a) || (Nat.land a b =? b))%nat).
(** [A.rev()] *)
Definition mv_rev (A : multivector) : multivector :=
  fun bits => let g := bit_count 8 bits in if Nat.even (g * (g - 1) / 2) then A bits else - A bits.
(** [A.dual()] = [A | A.I.rev()] *)
Definition mv_dual (dim : nat) (A : multivector) : multivector :=
  mv_inner dim A (mv_rev (fun bits => if (bits =? 2 ^ dim - 1)%nat then 1 else 0)).
Definition mv_norm_squared (dim : nat) (A : multivector) : R := rsum (fun bits => A bits ^ 2) (2 ^ dim).
Definition mv_as_vector (dim : nat) (A : multivector) : list R := map (fun i => A (2 ^ i)%nat) (seq 0 dim).
(** [np.sign] *)
Definition np_sign (x : R) : R := if Rlt_dec 0 x then 1 else if Rlt_dec x 0 then - (1) else 0.

(** shapes.py:287-320.  [face_vertices.item()] raises ValueError unless there is exactly one entry. *)
Definition face_normal (f : face) (normalize : bool) : res (list R) :=
  let* volume_vertices := unit_vertices_for_shape (volume_shape f) in
  let* fv := take_columns (pts_cols volume_vertices) (volume_vertex_indices f) in
  let fdim := shape_dim (face_shape f) in
  let dim := pts_dim volume_vertices in
  if (fdim =? 0)%nat then
    match fv with [[x]] => Ok [np_sign x] | _ => Err ValueError end
  else
    let* v0 := getitem fv 0 in
    let* spanning := mapM (fun i => let* v := getitem fv (i + 1) in Ok (mv_vector (vsub v v0))) (seq 0 fdim) in
    match spanning with
    | [] => Err TypeError
    | s :: rest =>
        let ps := fold_left (mv_outer dim) rest s in
        let surface_ps := if normalize then (fun bits => ps bits / sqrt (mv_norm_squared dim ps)) else ps in
        Ok (mv_as_vector dim (mv_dual dim surface_ps))
    end.
