(** * numpy matrices and numpy.linalg (external)

    What the matrix code of modepy (modepy/matrices.py:87-480,
    modepy/modal_decay.py:95-185, modepy/tools.py:314-337,
    modepy/quadrature/construction.py) uses of numpy: two-dimensional arrays with
    their shape, transpose, [np.dot]/[@], [np.eye], slicing, [la.solve],
    [la.inv] and [la.pinv].  These are models of their mathematical definition
    over exact reals (no rounding; [la.solve]/[la.inv] raise LinAlgError exactly
    for singular matrices; [la.pinv] is the Moore-Penrose inverse without cut-off
    of small singular values). *)
From Coq Require Import Reals.
From mathcomp Require Import all_ssreflect all_algebra.
From Verif Require Import RField Py RSum.
Set Implicit Arguments.
Unset Strict Implicit.
Unset Printing Implicit Defensive.

(** A two-dimensional array: its shape and entries (meaningful inside it). *)
Record nmat := mkMat { nrows : nat; ncols : nat; ent : nat -> nat -> RR }.

Definition mT (A : nmat) : nmat := mkMat (ncols A) (nrows A) (fun i j => ent A j i).
Definition meye (n : nat) : nmat := mkMat n n (fun i j => if Nat.eqb i j then R1 else R0).
(** [A[:m, :n]] *)
Definition mslice (m n : nat) (A : nmat) : nmat :=
  mkMat (Nat.min m (nrows A)) (Nat.min n (ncols A)) (ent A).
(** [np.dot(A, B)], [A @ B]: ValueError if the inner dimensions differ. *)
Definition mdot (A B : nmat) : res nmat :=
  if Nat.eqb (ncols A) (nrows B)
  then Ok (mkMat (nrows A) (ncols B) (fun i j => rsum (fun k => Rmult (ent A i k) (ent B k j)) (ncols A)))
  else Err ValueError.

(** Conversion to and from mathcomp matrices. *)
Definition toM (m n : nat) (f : nat -> nat -> RR) : 'M[RR]_(m, n) := \matrix_(i < m, j < n) f i j.
Definition ofM (m n : nat) (A : 'M[RR]_(m, n)) : nat -> nat -> RR :=
  fun i j => match insub i, insub j with Some i', Some j' => A i' j' | _, _ => R0 end.

(** [la.inv(A)] *)
Definition np_inv (A : nmat) : res nmat :=
  if Nat.eqb (nrows A) (ncols A)
  then let M := toM (nrows A) (nrows A) (ent A) in
       if M \in unitmx then Ok (mkMat (nrows A) (nrows A) (ofM (invmx M))) else Err LinAlgError
  else Err LinAlgError.
(** [la.solve(A, B)] for a matrix [B]. *)
Definition np_solve (A B : nmat) : res nmat :=
  if Nat.eqb (nrows A) (ncols A)
  then if Nat.eqb (nrows B) (nrows A)
       then let M := toM (nrows A) (nrows A) (ent A) in
            if M \in unitmx
            then Ok (mkMat (nrows A) (ncols B) (ofM (invmx M *m toM (nrows A) (ncols B) (ent B))))
            else Err LinAlgError
       else Err ValueError
  else Err LinAlgError.
(** [la.pinv(A)]: from a rank factorisation A = C F it is
    F^T (F F^T)^-1 (C^T C)^-1 C^T. *)
Definition mpinv (m n : nat) (A : 'M[RR]_(m, n)) : 'M[RR]_(n, m) :=
  let C := col_base A in let F := row_base A in
  F^T *m invmx (F *m F^T) *m (invmx (C^T *m C) *m C^T).
Definition np_pinv (A : nmat) : nmat :=
  mkMat (ncols A) (nrows A) (ofM (mpinv (toM (nrows A) (ncols A) (ent A)))).
