(** * Basis functions: modepy/modes.py:130-770

    The Python code is duck-typed: the same functions run on floats, numpy
    arrays (elementwise) and pymbolic expressions.  The model is therefore
    written once over an arbitrary value type [T] with the operations the code
    uses ([vops]); [Rops] is the numerical instance (one point; exact reals),
    ModelSymbolic.v has the symbolic one.  Coefficients such as [alpha],
    [math.sqrt(...)] are Python floats, modelled by exact reals. *)
From Coq Require Import List Arith Bool ZArith Reals Lia.
From Coquelicot Require Import Lim_seq Rbar.
From Verif Require Import Py.
Import ListNotations.
Local Open Scope R_scope.

(** [math.gamma] (Python standard library), by Gauss's product formula
    Gamma(x) = lim n! n^x / (x (x+1) ... (x+n)). *)
Definition gauss_gamma_seq (x : R) (n : nat) : R :=
  INR (fact n) * Rpower (INR n) x
  / fold_right Rmult 1 (map (fun k => x + INR k) (seq 0 (n + 1))).
Definition gamma (x : R) : R := real (Lim_seq (gauss_gamma_seq x)).

(** What the code needs from a "RealValue". *)
Record vops (T : Type) := mkVops {
  vc : R -> T;                        (* a Python number used as an operand *)
  vadd : T -> T -> T;  vsub : T -> T -> T;
  vmul : T -> T -> T;  vdiv : T -> T -> T;
  vneg : T -> T;  vabs : T -> T;
  vpow : T -> nat -> T;
  vwhere_ge : T -> R -> T -> T -> T;  (* _where(a, "ge", tol, then, else) *)
  vwhere_gt : T -> R -> T -> T -> T;  (* _where(a, "gt", tol, then, else) *)
  vcse : T -> T                       (* modes.py:132-137 _cse *)
}.
Arguments vc {T}. Arguments vadd {T}. Arguments vsub {T}. Arguments vmul {T}.
Arguments vdiv {T}. Arguments vneg {T}. Arguments vabs {T}. Arguments vpow {T}.
Arguments vwhere_ge {T}. Arguments vwhere_gt {T}. Arguments vcse {T}.

(** Numerical evaluation at one point.  [_where] (modes.py:140-160) selects;
    [_cse] returns its argument.  In R, [x / 0] is some real, which is
    never selected by the code's [_where] guards. *)
Definition Rops : vops R := {|
  vc := fun r => r;
  vadd := Rplus; vsub := Rminus; vmul := Rmult; vdiv := Rdiv;
  vneg := Ropp; vabs := Rabs; vpow := pow;
  vwhere_ge := fun a tol th el => if Rle_dec tol a then th else el;
  vwhere_gt := fun a tol th el => if Rlt_dec tol a then th else el;
  vcse := fun x => x
|}.

Section Jacobi.
  Context {T : Type} (o : vops T).

  (** modes.py:189-193: [gamma0]. *)
  Definition jac_gamma0 (alpha beta : R) : R :=
    if Rlt_dec (Rabs (alpha + beta + 1)) (/ 10 ^ 14)
    then gamma (alpha + 1) * gamma (beta + 1)
    else Rpower 2 (alpha + beta + 1) / (alpha + beta + 1)
         * gamma (alpha + 1) * gamma (beta + 1) / gamma (alpha + beta + 1).

  (** modes.py:201 *)
  Definition jac_gamma1 (alpha beta : R) : R :=
    (alpha + 1) * (beta + 1) / (alpha + beta + 3) * jac_gamma0 alpha beta.

  (** modes.py:214-219: [anew] and [bnew] in iteration [i]. *)
  Definition jac_anew (alpha beta : R) (i : nat) : R :=
    let h1 := 2 * INR i + alpha + beta in
    let foo := (INR i + 1) * (INR i + 1 + alpha + beta) * (INR i + 1 + alpha)
               * (INR i + 1 + beta) / (h1 + 1) / (h1 + 3) in
    2 / (h1 + 2) * sqrt foo.
  Definition jac_bnew (alpha beta : R) (i : nat) : R :=
    let h1 := 2 * INR i + alpha + beta in
    - (alpha * alpha - beta * beta) / (h1 * (h1 + 2)).

  (** modes.py:213-223: the loop, with [pprev] = pl[i-1], [pcur] = pl[i];
      [steps] iterations starting at [i]. *)
  Fixpoint jac_loop (alpha beta : R) (x : T) (i steps : nat) (aold : R) (pprev pcur : T) : T :=
    match steps with
    | O => pcur
    | S steps' =>
        let anew := jac_anew alpha beta i in
        let bnew := jac_bnew alpha beta i in
        let pnew := vcse o (vdiv o (vadd o (vmul o (vc o (- aold)) pprev)
                                           (vmul o (vsub o x (vc o bnew)) pcur))
                                   (vc o anew)) in
        jac_loop alpha beta x (S i) steps' anew pcur pnew
    end.

  (** modes.py:167-225: [jacobi(alpha, beta, n, x)]. *)
  Definition jacobi (alpha beta : R) (n : nat) (x : T) : T :=
    let p0 := vadd o (vc o (1 / sqrt (jac_gamma0 alpha beta))) (vmul o (vc o 0) x) in
    match n with
    | O => p0
    | S n' =>
        let p1 := vcse o (vdiv o (vadd o (vdiv o (vmul o (vc o (alpha + beta + 2)) x) (vc o 2))
                                         (vc o ((alpha - beta) / 2)))
                                 (vc o (sqrt (jac_gamma1 alpha beta)))) in
        let aold := 2 / (2 + alpha + beta)
                    * sqrt ((alpha + 1) * (beta + 1) / (alpha + beta + 3)) in
        jac_loop alpha beta x 1 n' aold p0 p1
    end.

  (** modes.py:228-235: [grad_jacobi]. *)
  Definition grad_jacobi (alpha beta : R) (n : nat) (x : T) : T :=
    match n with
    | O => vmul o (vc o 0) x
    | S n' => vmul o (vc o (sqrt (INR n * (INR n + alpha + beta + 1))))
                     (jacobi (alpha + 1) (beta + 1) n' x)
    end.
End Jacobi.

(** modes.py:238-243: [binom]. *)
Definition binom (x y : R) : R := gamma (x + 1) / (gamma (y + 1) * gamma (x - y + 1)).

(** modes.py:246-285: [scaled_jacobi] for a float64 argument ([eps] = 100 * 2^-52). *)
Definition scaled_jacobi {T} (o : vops T) (alpha beta : R) (n : nat) (x : T) : T :=
  let eps := 100 * / 2 ^ 52 in
  let scaling :=
    if andb (n =? 0)%nat (if Rlt_dec (Rabs (alpha + beta + 1)) eps then true else false)
    then gamma (INR n + alpha + 1) * gamma (INR n + beta + 1) / INR (fact n)
    else Rpower 2 (alpha + beta + 1) / (2 * INR n + alpha + beta + 1)
         * gamma (INR n + alpha + 1) * gamma (INR n + beta + 1)
         / gamma (INR n + alpha + beta + 1) / INR (fact n) in
  vmul o (vc o (sqrt scaling)) (jacobi o alpha beta n x).

Section PKDO.
  Context {T : Type} (o : vops T).
  Local Notation "a +' b" := (vadd o a b) (at level 50, left associativity).
  Local Notation "a -' b" := (vsub o a b) (at level 50, left associativity).
  Local Notation "a *' b" := (vmul o a b) (at level 40, left associativity).
  Local Notation "a /' b" := (vdiv o a b) (at level 40, left associativity).
  Local Notation "a ^' n" := (vpow o a n) (at level 30, right associativity).
  Local Notation "% r" := (vc o r) (at level 25, format "% r").

  (** modes.py:292-302: [_rstoab], tol = 1e-12. *)
  Definition rstoab (r s : T) : T * T :=
    let a := vwhere_ge o (vabs o (s -' %1)) (/ 10 ^ 12)
                       (%2 *' (%1 +' r) /' (%1 -' s) -' %1) (%(-1)) in
    (a, s).

  (** modes.py:305-325: [pkdo_2d((i, j), (r, s))]. *)
  Definition pkdo_2d (i j : nat) (r s : T) : T :=
    let '(a, b) := rstoab r s in
    let h1 := jacobi o 0 0 i a in
    let h2 := jacobi o (2 * INR i + 1) 0 j b in
    %(sqrt 2) *' h1 *' h2 *' (%1 -' b) ^' i.

  (** modes.py:328-380: [grad_pkdo_2d]. *)
  Definition grad_pkdo_2d (i j : nat) (r s : T) : T * T :=
    let '(a, b) := rstoab r s in
    let fa := vcse o (jacobi o 0 0 i a) in
    let dfa := vcse o (grad_jacobi o 0 0 i a) in
    let gb := vcse o (jacobi o (2 * INR i + 1) 0 j b) in
    let dgb := vcse o (grad_jacobi o (2 * INR i + 1) 0 j b) in
    let half1mb := %(1/2) *' (%1 -' b) in
    let dmodedr := dfa *' gb in
    let dmodedr := if (i =? 0)%nat then dmodedr else dmodedr *' half1mb ^' (i - 1) in
    let dmodeds := dfa *' (gb *' (%(1/2) *' (%1 +' a))) in
    let dmodeds := if (i =? 0)%nat then dmodeds else dmodeds *' half1mb ^' (i - 1) in
    let tmp := dgb *' half1mb ^' i in
    let tmp := if (i =? 0)%nat then tmp
               else tmp -' %((1/2) * INR i) *' gb *' half1mb ^' (i - 1) in
    let dmodeds := dmodeds +' fa *' tmp in
    let norm := %(Rpower 2 (INR i + 1/2)) in
    (norm *' dmodedr, norm *' dmodeds).

  (** modes.py:387-397: [_rsttoabc], tol = 1e-10. *)
  Definition rsttoabc (r s t : T) : T * T * T :=
    let a := vwhere_gt o (vabs o (s +' t)) (/ 10 ^ 10)
                       (%2 *' (%1 +' r) /' (vneg o s -' t) -' %1) (%(-1)) in
    let b := vwhere_gt o (vabs o (t -' %1)) (/ 10 ^ 10)
                       (%2 *' (%1 +' s) /' (%1 -' t) -' %1) (%(-1)) in
    (a, b, t).

  (** modes.py:400-426: [pkdo_3d((i, j, k), (r, s, t))]. *)
  Definition pkdo_3d (i j k : nat) (r s t : T) : T :=
    let '(a, b, c) := rsttoabc r s t in
    let h1 := jacobi o 0 0 i a in
    let h2 := jacobi o (2 * INR i + 1) 0 j b in
    let h3 := jacobi o (2 * (INR i + INR j) + 2) 0 k c in
    %(2 * sqrt 2) *' h1 *' h2 *' (%1 -' b) ^' i *' h3 *' (%1 -' c) ^' (i + j).

  (** modes.py:429-496: [grad_pkdo_3d]. *)
  Definition grad_pkdo_3d (i j k : nat) (r s t : T) : T * T * T :=
    let '(a, b, c) := rsttoabc r s t in
    let fa := vcse o (jacobi o 0 0 i a) in
    let dfa := vcse o (grad_jacobi o 0 0 i a) in
    let gb := vcse o (jacobi o (2 * INR i + 1) 0 j b) in
    let dgb := vcse o (grad_jacobi o (2 * INR i + 1) 0 j b) in
    let hc := vcse o (jacobi o (2 * (INR i + INR j) + 2) 0 k c) in
    let dhc := vcse o (grad_jacobi o (2 * (INR i + INR j) + 2) 0 k c) in
    let half1mb := %(1/2) *' (%1 -' b) in
    let half1mc := %(1/2) *' (%1 -' c) in
    (* r-derivative *)
    let dmodedr := dfa *' gb *' hc in
    let dmodedr := if (i =? 0)%nat then dmodedr else dmodedr *' half1mb ^' (i - 1) in
    let dmodedr := if (i + j =? 0)%nat then dmodedr else dmodedr *' half1mc ^' (i + j - 1) in
    (* s-derivative *)
    let dmodeds := %(1/2) *' (%1 +' a) *' dmodedr in
    let tmp := dgb *' half1mb ^' i in
    let tmp := if (i =? 0)%nat then tmp
               else tmp +' %(- (1/2) * INR i) *' (gb *' half1mb ^' (i - 1)) in
    let tmp := if (i + j =? 0)%nat then tmp else tmp *' half1mc ^' (i + j - 1) in
    let tmp := fa *' tmp *' hc in
    let dmodeds := dmodeds +' tmp in
    (* t-derivative *)
    let dmodedt := %(1/2) *' (%1 +' a) *' dmodedr +' %(1/2) *' (%1 +' b) *' tmp in
    let tmp := dhc *' half1mc ^' (i + j) in
    let tmp := if (i + j =? 0)%nat then tmp
               else tmp -' %((1/2) * (INR i + INR j)) *' (hc *' half1mc ^' (i + j - 1)) in
    let tmp := fa *' (gb *' tmp) in
    let tmp := tmp *' half1mb ^' i in
    let dmodedt := dmodedt +' tmp in
    let norm := %(Rpower 2 (2 * INR i + INR j + 3/2)) in
    (norm *' dmodedr, norm *' dmodeds, norm *' dmodedt).

  (** pytools.product: 1 times all factors, left to right. *)
  Definition product (l : list T) : T := fold_left (fun acc f => acc *' f) l (%1).

  (** modes.py:517-523: [_diff_monomial_1d]. *)
  Definition diff_monomial_1d (r : T) (n : nat) : T :=
    match n with
    | 0%nat => %0 *' r
    | 1%nat => %1 +' %0 *' r
    | _ => %(INR n) *' r ^' (n - 1)
    end.

  (** modes.py:503-514: [monomial]; [rst] lists the coordinates of a point. *)
  Definition monomial (order : list nat) (rst : list T) : res T :=
    if negb (length order =? length rst)%nat then Err AssertionE
    else Ok (product (map (fun p => fst p ^' snd p) (combine rst order))).

  (** modes.py:526-548: [diff_monomial].  [diff_axis] may be any int. *)
  Definition diff_monomial (order : list nat) (diff_axis : Z) (rst : list T) : res T :=
    if negb (length order =? length rst)%nat then Err AssertionE
    else Ok (product
               (map (fun p => if (diff_axis =? Z.of_nat (fst p))%Z
                              then diff_monomial_1d (fst (snd p)) (snd (snd p))
                              else fst (snd p) ^' snd (snd p))
                    (combine (seq 0 (length order)) (combine rst order)))).

  (** modes.py:551-574: [grad_monomial]. *)
  Definition grad_monomial (order : list nat) (rst : list T) : res (list T) :=
    if negb (length order =? length rst)%nat then Err AssertionE
    else Ok (map (fun j =>
               product
                 (map (fun p => if (j =? fst p)%nat
                                then diff_monomial_1d (fst (snd p)) (snd (snd p))
                                else fst (snd p) ^' snd (snd p))
                      (combine (seq 0 (length order)) (combine rst order))))
               (seq 0 (length order))).

  (** modes.py:860-863: [zerod_basis]. *)
  Definition zerod_basis (x : list T) : res T :=
    match x with
    | [] => Ok (%1 +' %1)
    | _ => Err AssertionE
    end.

  (** modes.py:868-877: [_pkdo_1d], [_grad_pkdo_1d]; unpacking raises ValueError. *)
  Definition pkdo_1d (order : list nat) (r : list T) : res T :=
    match order, r with
    | [i], [r0] => Ok (jacobi o 0 0 i r0)
    | _, _ => Err ValueError
    end.
  Definition grad_pkdo_1d (order : list nat) (r : list T) : res (list T) :=
    match order, r with
    | [i], [r0] => Ok [grad_jacobi o 0 0 i r0]
    | _, _ => Err ValueError
    end.

  (** The unpacking of [rs] and [order] in pkdo_2d/3d (modes.py:320-321, 346-350,
      418-420, 447-452); [_rstoab(star-rs)] raises TypeError for a wrong
      number of coordinates (three coordinates would set [tol]; not
      modelled, treated as TypeError), the others ValueError. *)
  Definition pkdo_2d_fn (order : list nat) (rs : list T) : res T :=
    match rs, order with
    | [r; s], [i; j] => Ok (pkdo_2d i j r s)
    | [_; _], _ => Err ValueError
    | _, _ => Err TypeError
    end.
  Definition grad_pkdo_2d_fn (order : list nat) (rs : list T) : res (list T) :=
    match rs, order with
    | [r; s], [i; j] => let '(dr, ds) := grad_pkdo_2d i j r s in Ok [dr; ds]
    | _, _ => Err ValueError
    end.
  Definition pkdo_3d_fn (order : list nat) (rst : list T) : res T :=
    match rst, order with
    | [r; s; t], [i; j; k] => Ok (pkdo_3d i j k r s t)
    | _, _ => Err ValueError
    end.
  Definition grad_pkdo_3d_fn (order : list nat) (rst : list T) : res (list T) :=
    match rst, order with
    | [r; s; t], [i; j; k] =>
        let '(dr, ds, dt) := grad_pkdo_3d i j k r s t in Ok [dr; ds; dt]
    | _, _ => Err ValueError
    end.
End PKDO.
