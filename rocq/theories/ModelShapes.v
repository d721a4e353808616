(** * Shapes: modepy/shapes.py:240-495 (faces and submeshes are modelled in
    ModelFaces.v and ModelSubmesh.v). *)
From Coq Require Import List Arith Bool Lia.
From Verif Require Import Py.
Import ListNotations.

(** Which class a tensor-product shape object is an instance of:
    modepy/shapes.py:335 TensorProductShape or :473 Hypercube. *)
Inductive tpcls : Set := CTensorProduct | CHypercube.

(** Shape objects: modepy/shapes.py:402-414 Simplex (field dim) and :335-375
    TensorProductShape / :473-494 Hypercube (fields dim, bases).  User-defined
    subclasses of Shape are not modelled; dimensions are nonnegative. *)
Inductive shape : Type :=
| Simplex (dim : nat)
| TPShape (cls : tpcls) (dim : nat) (bases : list shape).

(** The field [dim]. *)
Definition shape_dim (s : shape) : nat :=
  match s with Simplex d => d | TPShape _ d _ => d end.

(** modepy/shapes.py:361-364: flatten input shapes. *)
Definition shape_flatten (bases : list shape) : list shape :=
  concat_tuples (map (fun s => match s with
                               | TPShape _ _ bs => bs
                               | Simplex _ => [s]
                               end) bases).

(** modepy/shapes.py:359-375 TensorProductShape.__init__.  [len(bases) - 1] is
    truncated at 0 here; for no bases Python compares 0 < -1, also False. *)
Definition tp_init (cls : tpcls) (bases : list shape) : res shape :=
  let bases := shape_flatten bases in
  let nsegments := length (filter (fun s => shape_dim s =? 1) bases) in
  if nsegments <? length bases - 1 then Err NotImplementedE
  else Ok (TPShape cls (sum_nat (map shape_dim bases)) bases).

(** modepy/shapes.py:353-375: [TensorProductShape(bases)].  [__new__] returns
    bases[0] for a single base; Python then runs [type(obj).__init__(obj,
    bases)] exactly if the result is an instance of TensorProductShape; for a
    Hypercube that computes [(Simplex(1),) * bases], a TypeError. *)
Definition mk_TensorProductShape (bases : list shape) : res shape :=
  match bases with
  | [Simplex d] => Ok (Simplex d)
  | [TPShape CTensorProduct _ _] => tp_init CTensorProduct bases
  | [TPShape CHypercube _ _] => Err TypeError
  | _ => tp_init CTensorProduct bases
  end.

(** modepy/shapes.py:483-490: [Hypercube(dim)]. *)
Definition mk_Hypercube (dim : nat) : res shape :=
  if dim =? 1 then Ok (Simplex 1)
  else tp_init CHypercube (repeat (Simplex 1) dim).

(** modepy/shapes.py:377-380, 411-414: [nvertices]. *)
Fixpoint nvertices (s : shape) : nat :=
  match s with
  | Simplex d => d + 1
  | TPShape _ _ bases => prod_nat (map nvertices bases)
  end.

(** [sorted(..., key=...)]: stable insertion sort on the keys. *)
Fixpoint insert_by_key {V} (x : nat * V) (l : list (nat * V)) : list (nat * V) :=
  match l with
  | [] => [x]
  | y :: l' => if fst x <=? fst y then x :: l else y :: insert_by_key x l'
  end.
Fixpoint sort_by_key {V} (l : list (nat * V)) : list (nat * V) :=
  match l with
  | [] => []
  | x :: l' => insert_by_key x (sort_by_key l')
  end.

(** modepy/shapes.py:382-387, 406-409: [nfaces].  [*segments, shape = []] is a
    ValueError, [segments[0]] of an empty list an IndexError.  The values of
    the bases are computed on demand in Python; a base's exception surfaces
    only if that base is used. *)
Fixpoint nfaces (s : shape) : res nat :=
  match s with
  | Simplex d => Ok (d + 1)
  | TPShape _ _ bases =>
      let by_dim := sort_by_key (map (fun b => (shape_dim b, nfaces b)) bases) in
      match rev by_dim with
      | [] => Err ValueError
      | (_, last_nfaces) :: segments_rev =>
          let segments := rev segments_rev in
          let* a := last_nfaces in
          match segments with
          | [] => Err IndexError
          | (_, seg_nfaces) :: _ =>
              let* b := seg_nfaces in Ok (a + length segments * b)
          end
      end
  end.
