(** * Submeshes: modepy/shapes.py:569-706

    A node list is the list of its integer tuples, an element the list of its node indices. *)
From Coq Require Import List Arith Bool.
From Verif Require Import Py PyToolsModel ModelShapes ModelSpaces ModelNodes.
Import ListNotations.

(** The tuple built inside [try_add_line/tri/tet] (shapes.py:607-612, 622-630, 649-658) and at :699-702:
    [tuple(node_dict[add_tuples(current, d)] for d in ds)].  [node_dict] (:600-602, :695) maps each node
    tuple to its (last) position. *)
Definition element_at (node_tuples : list (list nat)) (current : list nat) (ds : list (list nat)) : res (list nat) :=
  mapM (fun d => dict_index node_tuples (add_tuples current d)) ds.

(** [with contextlib.suppress(KeyError): result.append(...)]: a KeyError leaves the result as it is, other
    exceptions pass. *)
Definition append_suppress (result : list (list nat)) (element : res (list nat)) : res (list (list nat)) :=
  match element with
  | Ok e => Ok (result ++ [e])
  | Err KeyError => Ok result
  | Err e => Err e
  end.

(** The loops [for current in node_tuples] (shapes.py:614-615, 632-639, 661-672, 697-702): for each node the
    candidate elements, in the order in which they are tried. *)
Definition submesh_loop (node_tuples : list (list nat)) (candidates : list (list (list nat))) : res (list (list nat)) :=
  fold_left (fun acc current =>
      fold_left (fun acc ds => let* result := acc in append_suppress result (element_at node_tuples current ds)) candidates acc)
    node_tuples (Ok []).

(** The calls of [try_add_...] at shapes.py:615, 638-639, 666-672. *)
Definition simplex_candidates (dims : nat) : option (list (list (list nat))) :=
  match dims with
  | 1 => Some [[[0]; [1]]]
  | 2 => Some [[[0; 0]; [1; 0]; [0; 1]];
               [[1; 0]; [1; 1]; [0; 1]]]
  | 3 => Some [[[0; 0; 0]; [1; 0; 0]; [0; 1; 0]; [0; 0; 1]];
               [[1; 0; 1]; [1; 0; 0]; [0; 0; 1]; [0; 1; 0]];
               [[1; 0; 1]; [0; 1; 1]; [0; 1; 0]; [0; 0; 1]];
               [[1; 0; 0]; [0; 1; 0]; [1; 0; 1]; [1; 1; 0]];
               [[0; 1; 1]; [0; 1; 0]; [1; 1; 0]; [1; 0; 1]];
               [[0; 1; 1]; [1; 1; 1]; [1; 0; 1]; [1; 1; 0]]]
  | _ => None
  end.

(** shapes.py:591-678; the dimension is that of the tuples, [shape] is not used. *)
Definition submesh_for_simplex (node_tuples : list (list nat)) : res (list (list nat)) :=
  let* dims := single_valued (map (@length nat) node_tuples) in
  match simplex_candidates dims with
  | Some candidates => submesh_loop node_tuples candidates
  | None => Err NotImplementedE
  end.

(** shapes.py:681-704 *)
Definition submesh_for_hypercube (s : shape) (node_tuples : list (list nat)) : res (list (list nat)) :=
  let* space := space_for_shape s (OInt 1) in
  let* vertex_node_tuples := node_tuples_for_space space in
  submesh_loop node_tuples [vertex_node_tuples].

(** shapes.py:572-588: dispatch on the type of the shape. *)
Definition submesh_for_shape (s : shape) (node_tuples : list (list nat)) : res (list (list nat)) :=
  match s with
  | Simplex _ => submesh_for_simplex node_tuples
  | TPShape _ _ _ => submesh_for_hypercube s node_tuples
  end.
