(** * Gauss and Gauss-Lobatto rules: modepy/quadrature/jacobi_gauss.py

    External routines are arguments: [eigh] stands for [numpy.linalg.eigh] (given the
    size and the entries of a symmetric matrix it returns the eigenvalues and
    the matrix whose columns are the eigenvectors), [roots_jacobi] for
    scipy.special.roots_jacobi.  Numbers are exact reals; the parameters are meant
    to satisfy alpha, beta > -1 as the documentation requires (outside, Python may
    raise ZeroDivisionError or produce nan; this is not modelled).  Deprecation
    warnings are not modelled. *)
From Coq Require Import List Arith Bool ZArith QArith Reals.
From Verif Require Import Py RSum ModelNd ModelShapes ModelNodes ModelModes ModelQuad.
Import ListNotations.
Local Open Scope R_scope.

Definition eigh_t : Type := nat -> (nat -> nat -> R) -> (nat -> R) * (nat -> nat -> R).
Definition roots_t : Type := nat -> R -> R -> list R * list R.

(** [la.norm(M)] of an [n] x [n] matrix: the Frobenius norm. *)
Definition frob (n : nat) (M : nat -> nat -> R) : R :=
  sqrt (rsum (fun i => rsum (fun j => M i j * M i j) n) n).
(** [T[i, j] = v] *)
Definition mset (T : nat -> nat -> R) (i j : nat) (v : R) : nat -> nat -> R :=
  fun i' j' => if ((i' =? i) && (j' =? j))%nat then v else T i' j'.

(** jacobi_gauss.py:163-167: [a(n)] *)
Definition jg_a (alpha beta : R) (n : nat) : R :=
  let apb := alpha + beta in
  2 / (2 * INR n + apb)
  * sqrt ((INR n * (INR n + apb) * (INR n + alpha) * (INR n + beta))
          / ((2 * INR n + apb - 1) * (2 * INR n + apb + 1))).
(** jacobi_gauss.py:169-173: [b(n)] *)
Definition jg_b (alpha beta : R) (n : nat) : R :=
  let apb := alpha + beta in
  match n with
  | O => - (alpha - beta) / (apb + 2)
  | S _ => - (alpha * alpha - beta * beta) / ((2 * INR n + apb) * (2 * INR n + apb + 2))
  end.
(** jacobi_gauss.py:178-185: the body of the loop; the state is [(T, current_a)]. *)
Definition jg_step (alpha beta : R) (N : nat) (st : (nat -> nat -> R) * R) (n : nat) : (nat -> nat -> R) * R :=
  let '(T, current_a) := st in
  let T := mset T n n (jg_b alpha beta n) in
  let T := if (0 <? n)%nat then mset T n (n - 1) current_a else T in
  if (n <? N)%nat
  then let next_a := jg_a alpha beta (n + 1) in (mset T n (n + 1) next_a, next_a)
  else (T, current_a).
(** jacobi_gauss.py:175-185 *)
Definition jg_matrix (alpha beta : R) (N : nat) : nat -> nat -> R :=
  fst (fold_left (jg_step alpha beta N) (seq 0 (N + 1)) (fun _ _ => 0, 0)).

Definition Rlt_bool (x y : R) : bool := if Rlt_dec x y then true else false.

Section Gauss.
  Context (eigh : eigh_t) (roots_jacobi : roots_t).

  (** jacobi_gauss.py:125-200: compute_weights_and_nodes *)
  Definition jg_compute (N : nat) (alpha beta : R) : res (list R * list R) :=
    if (Rlt_bool (Rabs (alpha + 1 / 2)) (/ 10 ^ 14) && Rlt_bool (Rabs (beta + 1 / 2)) (/ 10 ^ 14))%bool
    then (* np.arange(N+1, 0, -1) *)
      Ok (map (fun k => cos (PI / (2 * (INR N + 1)) * (2 * INR k - 1))) (rev (seq 1 (N + 1))),
          repeat (PI / (INR N + 1)) (N + 1))
    else if Rlt_bool (Rabs (alpha + beta + 1)) (/ 10 ^ 14) then Err ValueError
    else
      let T := jg_matrix alpha beta N in
      if negb (Rlt_bool (frob (N + 1) (fun i j => T i j - T j i)) (/ 10 ^ 12)) then Err AssertionE
      else
        let '(eigval, eigvec) := eigh (N + 1)%nat T in
        if negb (Rlt_bool (frob (N + 1) (fun i j => rsum (fun k => T i k * eigvec k j) (N + 1)
                                                - rsum (fun k => eigvec i k * (if (k =? j)%nat then eigval j else 0)) (N + 1)))
                          (/ 10 ^ 12)) then Err AssertionE
        else
          let nodes := map eigval (seq 0 (N + 1)) in
          Ok (nodes, map (fun i => eigvec 0%nat i ^ 2 / jacobi Rops alpha beta 0 (nth i nodes 0) ^ 2) (seq 0 (N + 1))).

  Inductive backend := Builtin | Scipy | OtherBackend.

  (** jacobi_gauss.py:78-123: JacobiGaussQuadrature.__init__ *)
  Definition jacobi_gauss (alpha beta : R) (N : nat) (be : option backend) (force_dim_axis : bool) : res quad :=
    let be := match be with None => Builtin | Some b => b end in
    let* xw := match be with
               | Builtin => jg_compute N alpha beta
               | Scipy => Ok (roots_jacobi (N + 1)%nat alpha beta)
               | OtherBackend => Err NotImplementedE
               end in
    Ok (mkQuad (negb force_dim_axis) 1 (map (fun x => [x]) (fst xw)) (snd xw) (Some (degree (2 * N + 1)))).

  (** jacobi_gauss.py:203-216 *)
  Definition legendre_gauss (N : nat) (be : option backend) (force_dim_axis : bool) : res quad :=
    jacobi_gauss 0 0 N be force_dim_axis.
  (** jacobi_gauss.py:219-245 *)
  Definition chebyshev_gauss (N : nat) (kind : nat) (be : option backend) (force_dim_axis : bool) : res quad :=
    match kind with
    | 1%nat => jacobi_gauss (- (1 / 2)) (- (1 / 2)) N be force_dim_axis
    | 2%nat => jacobi_gauss (1 / 2) (1 / 2) N be force_dim_axis
    | _ => Err ValueError
    end.
  (** jacobi_gauss.py:248-261 *)
  Definition gauss_gegenbauer (alpha : R) (N : nat) (be : option backend) (force_dim_axis : bool) : res quad :=
    jacobi_gauss alpha alpha N be force_dim_axis.

  (** jacobi_gauss.py:264-297: jacobi_gauss_lobatto_nodes; the result is the list of nodes
      and whether the array is one-dimensional. *)
  Definition jgl_nodes (alpha beta : R) (N : nat) (be : option backend) (force_dim_axis : bool) : res (list R * bool) :=
    if (N =? 0)%nat then Ok ([0], true)
    else
      let* inner := if (1 <? N)%nat
                    then let* q := jacobi_gauss (alpha + 1) (beta + 1) (N - 2) be true in
                         Ok (map (fun c => nth 0 c 0) (q_nodes q))
                    else Ok (@nil R) in
      Ok (-1 :: inner ++ [1], negb force_dim_axis).
  (** jacobi_gauss.py:300-310 *)
  Definition lgl_nodes (N : nat) (be : option backend) (force_dim_axis : bool) : res (list R * bool) :=
    jgl_nodes 0 0 N be force_dim_axis.

  (** jacobi_gauss.py:349-357: [common_factor], with [n] = N - 1 *)
  Definition jgl_common (alpha beta : R) (n : R) : R :=
    Rpower 2 (alpha + beta + 1) * binom (n + alpha + 1) n / binom (n + beta + 1) n / binom (n + alpha + beta + 2) n
    * gamma (alpha + 2) / gamma (alpha + beta + 3).
  (** jacobi_gauss.py:358-361 *)
  Definition jgl_edge (alpha beta : R) (n : R) : R := jgl_common alpha beta n * gamma (beta + 1).
  (** jacobi_gauss.py:363-381 *)
  Definition jgl_inner (alpha beta : R) (n : nat) (x : R) : R :=
    let frac := (4 * (INR n + alpha + 1) * (INR n + beta + 1) + (alpha - beta) ^ 2)
                / (2 * INR n + alpha + beta + 2) ^ 2 in
    jgl_common alpha beta (INR n) * gamma (beta + 2) / (frac - x ^ 2) * (1 - x ^ 2)
    / scaled_jacobi Rops alpha beta (n + 1) x ^ 2.
  (** jacobi_gauss.py:313-391: JacobiGaussLobattoQuadrature *)
  Definition jacobi_gauss_lobatto (alpha beta : R) (N : nat) (be : option backend) (force_dim_axis : bool) : res quad :=
    let* nodes := jgl_nodes alpha beta N be false in
    if (N + 1 <? 2)%nat then Err ValueError
    else
      let n := (N - 1)%nat in
      let int_nodes := removelast (tl (fst nodes)) in
      let edge := jgl_edge alpha beta (INR n) in
      Ok (mkQuad (negb force_dim_axis) 1 (map (fun x => [x]) (fst nodes))
                 (edge :: map (jgl_inner alpha beta n) int_nodes ++ [edge]) (Some (degree (2 * N - 1)))).
  (** jacobi_gauss.py:394-399 *)
  Definition legendre_gauss_lobatto (N : nat) (be : option backend) (force_dim_axis : bool) : res quad :=
    jacobi_gauss_lobatto 0 0 N be force_dim_axis.
End Gauss.
