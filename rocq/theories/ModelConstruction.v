(** * Constructing quadrature rules: modepy/quadrature/construction.py:57-288

    Nodal functions are modelled pointwise: a function of an array of nodes acts node by
    node, so it is a function of one node, with complex values.  Warnings are not modelled
    except where they select a branch.  [la.cholesky], scipy's [solve_triangular],
    [la.eigvals], the integrator and Python's comparison of function objects are arguments. *)
From Coq Require Import Reals.
From Coquelicot Require Import Coquelicot.
From Coq Require Import List Arith Bool.
From Verif Require Import Py RSum.
Import ListNotations.

(** Sums of complex numbers, [csum f n] = f 0 + ... + f (n-1). *)
Fixpoint csum (f : nat -> C) (n : nat) : C := match n with O => 0%C | S m => (csum f m + f m)%C end.

Section Construction.
  Context {P : Type}.
  (** construction.py:77-103: a nodal function is an opaque callable (with an identity) or a
      [LinearCombinationIntegrand]; [is_list] tells whether its [functions] attribute is a
      list (otherwise it is a tuple). *)
  Inductive nfun : Type :=
  | NPrim (id : nat) (f : P -> C)
  | NLin (is_list : bool) (coefficients : list C) (functions : list nfun).

  (** construction.py:96-103 and calling an opaque function.  The two lists have the same length by
      :93-94, so [zip(..., strict=True)] does not raise. *)
  Fixpoint neval (f : nfun) (x : P) : C :=
    match f with
    | NPrim _ g => g x
    | NLin _ cs fs =>
        (fix go (cs : list C) (fs : list nfun) (acc : C) {struct fs} : C :=
           match fs, cs with
           | g :: fs', c :: cs' => go cs' fs' (acc + c * neval g x)%C
           | _, _ => acc
           end) cs fs 0%C
    end.
  (** construction.py:93-94: [__post_init__] *)
  Definition mk_lin (is_list : bool) (cs : list C) (fs : list nfun) : res nfun :=
    if (length cs =? length fs)%nat then Ok (NLin is_list cs fs) else Err AssertionE.

  Section Combine.
    (** Python's [==] on two nodal functions (identity first); it may raise. *)
    Context (py_eq : nfun -> nfun -> res bool).
    (** [xs != ys] for two lists of the same length: the first difference decides. *)
    Fixpoint list_ne (xs ys : list nfun) : res bool :=
      match xs, ys with
      | x :: xs', y :: ys' => let* e := py_eq x y in if e then list_ne xs' ys' else Ok true
      | [], [] => Ok false
      | _, _ => Ok true
      end.
    (** construction.py:118-121 *)
    Definition as_lin (f : nfun) : list (bool * list C * list nfun) :=
      match f with NPrim _ _ => [] | NLin k cs fs => [(k, cs, fs)] end.
    (** construction.py:130-145: the loop; [None] is the early return of the un-flattened combination.
        [basis[:ncommon] != f.functions[:ncommon]] is always true for a tuple.  A row longer than n
        does not fit into the matrix (ValueError). *)
    Fixpoint flatten_loop (n : nat) (lcs : list (bool * list C * list nfun)) (basis : list nfun) (rows : list (list C))
      : res (option (list nfun * list (list C))) :=
      match lcs with
      | [] => Ok (Some (basis, rows))
      | (k, cs, fs) :: lcs' =>
          let ncommon := Nat.min (length basis) (length fs) in
          let* differs := if k then list_ne (firstn ncommon basis) (firstn ncommon fs) else Ok true in
          if differs then Ok None
          else if (n <? length cs)%nat then Err ValueError
          else flatten_loop n lcs' (basis ++ skipn ncommon fs) (rows ++ [cs ++ repeat (RtoC 0) (n - length cs)])
      end.
    (** construction.py:148: [coefficients @ matrix] *)
    Definition vecmat (n : nat) (cs : list C) (rows : list (list C)) : res (list C) :=
      if (length cs =? n)%nat
      then Ok (map (fun k => csum (fun i => (nth i cs (RtoC 0) * nth k (nth i rows []) (RtoC 0))%C) n) (seq 0 n))
      else Err ValueError.
    (** construction.py:106-148; [is_list] is the kind of the sequence [functions]. *)
    Definition linearly_combine (is_list : bool) (coefficients : list C) (functions : list nfun) : res nfun :=
      let lcs := flat_map as_lin functions in
      if negb (length lcs =? length functions)%nat then mk_lin is_list coefficients functions
      else
        let n := length lcs in
        let* r := flatten_loop n lcs [] [] in
        match r with
        | None => mk_lin is_list coefficients functions
        | Some (basis, rows) => let* cs := vecmat n coefficients rows in mk_lin true cs basis
        end.
  End Combine.

  (** construction.py:57-62 [_ProductIntegrand] (of at least one function), :65-70 [_ConjugateIntegrand] *)
  Definition product_integrand (f : P -> C) (fs : list (P -> C)) (x : P) : C := fold_left (fun a g => (a * g x)%C) fs (f x).
  Definition conjugate_integrand (f : P -> C) (x : P) : C := Cconj (f x).

  Section Integrate.
    (** [integrate(integrand)] *)
    Context (integrate : (P -> C) -> C).
    (** construction.py:156-162: the entry computed for (i, j) *)
    Definition inner (f g : P -> C) : C := integrate (product_integrand f [conjugate_integrand g]).
    (** construction.py:151-169 *)
    Definition cmass_matrix (basis : list (P -> C)) (i j : nat) : C :=
      let b k := nth k basis (fun _ => RtoC 0) in
      if (j <=? i)%nat then inner (b i) (b j) else inner (b j) (b i).
    (** construction.py:203: the Frobenius norm of the strictly upper triangle *)
    Definition triu_norm (n : nat) (X : nat -> nat -> C) : R :=
      sqrt (rsum (fun i => rsum (fun j => if (i <? j)%nat then Cmod (X i j) ^ 2 else 0)%R n) n).
    Context (py_eq : nfun -> nfun -> res bool)
            (cholesky : nat -> (nat -> nat -> C) -> res (nat -> nat -> C))
            (solve_triangular : nat -> (nat -> nat -> C) -> (nat -> nat -> C) -> (nat -> nat -> C)).
    (** construction.py:172-208; the branch without scipy ([la.inv]) computes the same inverse. *)
    Definition orthogonalize_basis (is_list : bool) (basis : list nfun) : res (list nfun) :=
      let n := length basis in
      let mass_mat := cmass_matrix (map neval basis) in
      let* l_factor := cholesky n mass_mat in
      let l_inv := solve_triangular n l_factor (fun i j => if (i =? j)%nat then 1%C else 0%C) in
      if Rlt_dec (triu_norm n l_inv) (/ 10 ^ 14)
      then mapM (fun i => linearly_combine py_eq is_list (map (l_inv i) (seq 0 (i + 1))) (firstn (i + 1) basis)) (seq 0 n)
      else Err AssertionE.
  End Integrate.
End Construction.
Arguments nfun P : clear implicits.

(** construction.py:211-229: [_ComplexToNDAdapter] / [adapt_2d_integrands_to_complex_arg]. *)
Definition complex_to_nd (f : list R -> C) (z : C) : C := f [Re z; Im z].
Definition adapt_2d_integrands (fs : list (list R -> C)) : list (C -> C) := map complex_to_nd fs.

(** construction.py:232-288: [guess_nodes_vioreanu_rokhlin]; the matrix and its eigenvalues. *)
Definition vr_matrix (integrate : (C -> C) -> C) (onb : list (C -> C)) (i j : nat) : C :=
  let b k := nth k onb (fun _ => RtoC 0) in
  integrate (product_integrand (fun z => z) [b i; conjugate_integrand (b j)]).
Definition guess_nodes (eigvals : nat -> (nat -> nat -> C) -> list C) (integrate : (C -> C) -> C) (onb : list (C -> C)) : list C :=
  eigvals (length onb) (vr_matrix integrate onb).
