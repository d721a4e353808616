(** * Conversion to symbolic: modepy/modes.py:130-160, 736-770

    The functions of ModelModes.v and ModelBasis.v are written over an arbitrary value
    type; here is the instance that runs them on pymbolic operands.  pymbolic itself is an
    external package: the arithmetic of its expressions (with the simplifications for
    the constants 0 and 1) is modelled from its documentation and belongs to the trusted
    base; nested sums and products are not flattened.  PropsSymbolic.v states the result
    also for any other arithmetic that evaluates correctly. *)
From Coq Require Import List Arith Bool ZArith Reals.
From Verif Require Import Py ModelModes.
Import ListNotations.
Local Open Scope R_scope.

(** pymbolic.primitives: [Subscript(Variable("r"), i)], constants inside expressions, [Sum], [Product],
    [Quotient], [Power], [Call(Variable("abs"), ...)], [If(Comparison(...), ...)] for the two comparison
    operators in use, [CommonSubexpression]. *)
Inductive sexpr : Type :=
| ECoord (i : nat)
| ENum (r : R)
| ESum (a b : sexpr)
| EProd (a b : sexpr)
| EQuot (a b : sexpr)
| EPow (a : sexpr) (n : nat)
| EAbs (a : sexpr)
| EIfGe (a : sexpr) (b : R) (th el : sexpr)
| EIfGt (a : sexpr) (b : R) (th el : sexpr)
| ECse (a : sexpr).

(** An operand is a Python number or an [ExpressionNode]. *)
Inductive sval : Type :=
| SNum (r : R)
| SEx (e : sexpr).

Definition as_expr (v : sval) : sexpr := match v with SNum r => ENum r | SEx e => e end.

(** [a * b]: a factor 1 disappears, a factor 0 gives the number 0. *)
Definition smul (a b : sval) : sval :=
  match a, b with
  | SNum x, SNum y => SNum (x * y)
  | SNum x, SEx e => if Req_EM_T x 1 then b else if Req_EM_T x 0 then SNum 0 else SEx (EProd (ENum x) e)
  | SEx e, SNum y => if Req_EM_T y 1 then a else if Req_EM_T y 0 then SNum 0 else SEx (EProd e (ENum y))
  | SEx e, SEx e' => SEx (EProd e e')
  end.
(** [-a] is [-1 * a]. *)
Definition sneg (a : sval) : sval :=
  match a with SNum x => SNum (- x) | SEx _ => smul (SNum (-1)) a end.
(** [a + b]: a summand 0 disappears. *)
Definition sadd (a b : sval) : sval :=
  match a, b with
  | SNum x, SNum y => SNum (x + y)
  | SNum x, SEx e => if Req_EM_T x 0 then b else SEx (ESum (ENum x) e)
  | SEx e, SNum y => if Req_EM_T y 0 then a else SEx (ESum e (ENum y))
  | SEx e, SEx e' => SEx (ESum e e')
  end.
(** [a - b] *)
Definition ssub (a b : sval) : sval :=
  match a, b with
  | SNum x, SNum y => SNum (x - y)
  | _, _ => sadd a (sneg b)
  end.
(** [a / b]: a denominator 1 disappears. *)
Definition sdiv (a b : sval) : sval :=
  match a, b with
  | SNum x, SNum y => SNum (x / y)
  | SEx _, SNum y => if Req_EM_T y 1 then a else SEx (EQuot (as_expr a) (ENum y))
  | _, SEx e => SEx (EQuot (as_expr a) e)
  end.
(** [a ** n] for an int [n]; [a ** 0] is 1, [a ** 1] is [a]. *)
Definition spow (a : sval) (n : nat) : sval :=
  match a with
  | SNum x => SNum (x ^ n)
  | SEx e => match n with 0%nat => SNum 1 | 1%nat => a | _ => SEx (EPow e n) end
  end.
(** [abs(a)] *)
Definition sabs (a : sval) : sval := match a with SNum x => SNum (Rabs x) | SEx e => SEx (EAbs e) end.

(** modes.py:132-137 [_cse] and :140-160 [_where] on such operands. *)
Definition scse (a : sval) : sval := match a with SNum _ => a | SEx e => SEx (ECse e) end.
Definition swhere_ge (a : sval) (tol : R) (th el : sval) : sval :=
  match a with
  | SNum x => if Rle_dec tol x then th else el
  | SEx e => SEx (EIfGe e tol (as_expr th) (as_expr el))
  end.
Definition swhere_gt (a : sval) (tol : R) (th el : sval) : sval :=
  match a with
  | SNum x => if Rlt_dec tol x then th else el
  | SEx e => SEx (EIfGt e tol (as_expr th) (as_expr el))
  end.

Definition Sops : vops sval := {|
  vc := SNum;
  vadd := sadd; vsub := ssub; vmul := smul; vdiv := sdiv;
  vneg := sneg; vabs := sabs; vpow := spow;
  vwhere_ge := swhere_ge; vwhere_gt := swhere_gt; vcse := scse
|}.

(** pymbolic.primitives.make_sym_vector *)
Definition make_sym_vector (dim : nat) : list sval := map (fun i => SEx (ECoord i)) (seq 0 dim).

(** modes.py:738-770: [symbolicize_function], for a function and for a gradient (which returns a
    tuple).  [_unwrap_scalar_obj_array] only removes a numpy wrapper. *)
Definition symbolicize_function {A} (f : list sval -> res A) (dim : nat) : res A := f (make_sym_vector dim).

(** pymbolic.mapper.evaluator.EvaluationMapper on the context [{"r": x, "abs": abs}]; exact reals, where
    a division by zero in the branch that an [If] does not select is harmless. *)
Fixpoint eval_expr (x : list R) (e : sexpr) : R :=
  match e with
  | ECoord i => nth i x 0
  | ENum r => r
  | ESum a b => eval_expr x a + eval_expr x b
  | EProd a b => eval_expr x a * eval_expr x b
  | EQuot a b => eval_expr x a / eval_expr x b
  | EPow a n => eval_expr x a ^ n
  | EAbs a => Rabs (eval_expr x a)
  | EIfGe a b th el => if Rle_dec b (eval_expr x a) then eval_expr x th else eval_expr x el
  | EIfGt a b th el => if Rlt_dec b (eval_expr x a) then eval_expr x th else eval_expr x el
  | ECse a => eval_expr x a
  end.
Definition evaluate (x : list R) (v : sval) : R := match v with SNum r => r | SEx e => eval_expr x e end.
