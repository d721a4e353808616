(** * [vandermonde] with scalar- and tuple-returning functions: modepy/matrices.py:87-168

    A function either returns one value per node or a tuple of components with one value per node
    each.  As in [multi_vandermonde], all functions are evaluated before the numbers of components
    are compared, which matters only for the choice between two exceptions.  There is at least one node. *)
From Coq Require Import List Arith Bool ZArith Reals Lia.
From Verif Require Import Py PyToolsModel RSum RField ModelLinAlg ModelModes ModelBasis ModelQuad ModelMatrices.
Import ListNotations.

Definition any_fn : Type := (list R -> res R) + (list R -> res (list R)).

(** What iterating over the result of [f(nodes)] in matrices.py:160-161 yields: for each item the values
    to be stored in a column.  An array is iterated over its entries, which are then broadcast to all nodes. *)
Definition items (f : any_fn) (nodes : list (list R)) : res (nat * (nat -> nat -> option R)) :=
  match f with
  | inl f => let* v := mapM f nodes in Ok (length nodes, fun c _ => nth_error v c)
  | inr g => let* v := mapM g nodes in Ok (n_components v, fun c i => nth_error (nth i v []) c)
  end.
(** matrices.py:126-168: [multi_vandermonde] for both kinds of functions; [junk] stands for uninitialised entries. *)
Definition multi_vandermonde_any (junk : R) (functions : list any_fn) (nodes : list (list R)) : res (list nmat) :=
  match functions with
  | [] => Err ValueError
  | _ =>
      let* its := mapM (fun f => items f nodes) functions in
      let ncomp := match its with [] => 0 | it :: _ => fst it end in
      if existsb (fun it => ncomp <? fst it)%nat its then Err IndexError
      else Ok (map (fun c => mkMat (length nodes) (length functions)
                 (fun i j => match nth_error its j with
                             | Some it => match snd it c i with Some v => v | None => junk end
                             | None => junk end)) (seq 0 ncomp))
  end.
(** matrices.py:121: [result[:, j] = f(nodes)].  A tuple becomes an array of shape (ncomp, nnodes), which
    fits the column only for one component. *)
Definition column (f : any_fn) (nodes : list (list R)) : res (list R) :=
  match f with
  | inl f => mapM f nodes
  | inr g => let* v := mapM g nodes in
             if (n_components v =? 1)%nat then Ok (map (fun t => nth 0 t 0%R) v) else Err ValueError
  end.
(** matrices.py:87-123: [vandermonde]: a matrix, or the result of [multi_vandermonde] if the first function returns a tuple. *)
Definition vandermonde_any (junk : R) (functions : list any_fn) (nodes : list (list R)) : res (nmat + list nmat) :=
  match functions with
  | [] => Ok (inl (mat_of_cols (length nodes) 0 []))
  | inr f :: _ =>
      let* _ := mapM f nodes in
      let* ms := multi_vandermonde_any junk functions nodes in Ok (inr ms)
  | inl _ :: _ =>
      let* cols := mapM (fun f => column f nodes) functions in
      Ok (inl (mat_of_cols (length nodes) (length functions) cols))
  end.
