(** * Gauss-Kronrod rules and quadgk: modepy/quadrature/kronrod.py

    Numbers are exact reals, integrands are real-valued.  External routines are
    arguments: [eigvalsh] stands for numpy.linalg.eigvalsh (given the size and
    entries of a symmetric matrix it returns the eigenvalues), [heappush] and
    [heappop] for those of the standard module heapq. *)
From Coq Require Import List Arith Bool ZArith QArith Reals Lia.
From Verif Require Import Py RSum ModelNd ModelShapes ModelNodes ModelModes ModelQuad ModelGauss.
Import ListNotations.
Local Open Scope R_scope.

(** ** Eigenvalue helpers.  Arrays are functions of the index; the sizes are given where
    they matter. *)
Definition upd (f : nat -> R) (i : nat) (v : R) : nat -> R := fun j => if (j =? i)%nat then v else f j.

(** kronrod.py:111-116: the body of the loop, state (d1, d1d, d2, d2d), with [i] from 2 *)
Definition eigpoly_step (b : nat -> R) (z : R) (st : R * R * R * R) (i : nat) : R * R * R * R :=
  let '(d1, d1d, d2, d2d) := st in
  let b2 := b (i - 2)%nat ^ 2 in
  let d := z * d1 - b2 * d2 in
  let dd := d1 + z * d1d - b2 * d2d in
  (d, dd, d1, d1d).
(** kronrod.py:97-117; callers that leave [m] out pass a [b] of [m - 1] entries *)
Definition eigpoly (b : nat -> R) (z : R) (m : nat) : R * R :=
  let '(d1, d1d, _, _) := fold_left (eigpoly_step b z) (seq 2 (m - 1)) (z, 1, 1, 0) in (d1, d1d).

(** kronrod.py:127-129 *)
Definition eig_matrix (b : nat -> R) (m : nat) : nat -> nat -> R :=
  fold_left (fun h i => mset (mset h i (i - 1) (b (i - 1)%nat)) (i - 1) i (b (i - 1)%nat)) (seq 1 (m - 1)) (fun _ _ => 0).
(** [np.sort] *)
Fixpoint np_insert (x : R) (l : list R) : list R :=
  match l with
  | [] => [x]
  | y :: l' => if Rle_dec x y then x :: l else y :: np_insert x l'
  end.
Definition np_sort (l : list R) : list R := fold_right np_insert [] l.
Definition eigvalsh_t : Type := nat -> (nat -> nat -> R) -> list R.
Definition Req_bool (x y : R) : bool := if Req_EM_T x y then true else false.
(** [np.finfo(float).eps] *)
Definition float_eps : R := / 2 ^ 52.
(** kronrod.py:134-141 *)
Fixpoint newton (b : nat -> R) (m : nat) (iters : nat) (lam : R) : R :=
  match iters with
  | O => lam
  | S k =>
      let '(p, pd) := eigpoly b lam m in
      if Req_bool pd 0 then lam
      else
        let lam' := lam - p / pd in
        if Rlt_bool (Rabs (lam' - lam)) (10 * float_eps * Rabs lam') then lam'
        else newton b m k lam'
  end.
(** kronrod.py:142-145 *)
Definition newton_last (b : nat -> R) (m : nat) (lam : R) : R :=
  let '(p, pd) := eigpoly b lam m in if Req_bool pd 0 then lam else lam - p / pd.
(** kronrod.py:120-146 *)
Definition eignewt (eigvalsh : eigvalsh_t) (b : nat -> R) (m n : nat) : list R :=
  let lam0 := np_sort (eigvalsh m (eig_matrix b m)) in
  map (fun l => newton_last b m (newton b m 1000 l)) (firstn n lam0).

(** kronrod.py:161-166: the state is (v, s) *)
Definition eigvec1_step (b : nat -> R) (z : R) (st : (nat -> R) * R) (i : nat) : (nat -> R) * R :=
  let '(v, s) := st in
  let v := upd v i (- (b (i - 2)%nat * v (i - 2)%nat - z * v (i - 1)%nat) / b (i - 1)%nat) in
  (v, s + v i ^ 2).
(** kronrod.py:149-168 *)
Definition eigvec1 (b : nat -> R) (z : R) (m : nat) : nat -> R :=
  let v := upd (fun _ => 0) 0 1 in
  if (1 <? m)%nat
  then
    let s := v 0%nat ^ 2 in
    let v := upd v 1 (z * v 0%nat / b 0%nat) in
    let s := s + v 1%nat ^ 2 in
    let '(v, s) := fold_left (eigvec1_step b z) (seq 2 (m - 2)) (v, s) in
    fun i => v i / sqrt s
  else v.

(** ** Rules *)
(** kronrod.py:183, 256 *)
Definition legendre_b (i : nat) : R := INR (i + 1) / sqrt (4 * INR (i + 1) * INR (i + 1) - 1).
(** kronrod.py:175-186 *)
Definition gauss (eigvalsh : eigvalsh_t) (n : nat) : res (list R * list R) :=
  if (n <? 1)%nat then Err ValueError
  else
    let x := eignewt eigvalsh legendre_b n n in
    Ok (x, map (fun i => 2 * eigvec1 legendre_b (nth i x 0) n 0%nat ^ 2) (seq 0 n)).

(** kronrod.py:222-226: state (u, s) *)
Definition laurie_inner1 (n m : nat) (b : nat -> R) (st : R * (nat -> R)) (k : nat) : R * (nat -> R) :=
  let '(u, s) := st in
  let ell := (m - k + 1)%nat in
  let k1 := (k + n + 1)%nat in
  let u := u + (b k1 * s k - b (ell - 1)%nat * s (k + 1)%nat) in
  (u, upd s (k + 1) u).
(** kronrod.py:220-227: state (s, t) *)
Definition laurie_outer1 (n : nat) (b : nat -> R) (st : (nat -> R) * (nat -> R)) (m : nat) : (nat -> R) * (nat -> R) :=
  let '(s, t) := st in
  let '(_, s) := fold_left (laurie_inner1 n m b) (rev (seq 0 ((m + 1) / 2 + 1))) (0, s) in
  (t, s).
(** kronrod.py:234-239 *)
Definition laurie_inner2 (n m : nat) (b : nat -> R) (st : R * (nat -> R)) (k : nat) : R * (nat -> R) :=
  let '(u, s) := st in
  let ell := (m - k + 1)%nat in
  let j := (n - ell)%nat in
  let k1 := (k + n + 1)%nat in
  let u := u - (b k1 * s (j + 1)%nat - b (ell - 1)%nat * s (j + 2)%nat) in
  (u, upd s (j + 1) u).
(** kronrod.py:232-244: state (b, s, t) *)
Definition laurie_outer2 (n : nat) (st : (nat -> R) * (nat -> R) * (nat -> R)) (m : nat) : (nat -> R) * (nat -> R) * (nat -> R) :=
  let '(b, s, t) := st in
  let lo := (m + 1 - n)%nat in
  let '(_, s) := fold_left (laurie_inner2 n m b) (seq lo ((m - 1) / 2 + 1 - lo)) (0, s) in
  let k := ((m + 1) / 2)%nat in
  let b := if (2 * k =? m)%nat then b
           else let j := (n - (m - k + 2))%nat in upd b (k + n + 1) (s (j + 1)%nat / s (j + 2)%nat) in
  (b, t, s).
(** kronrod.py:210-213 *)
Definition laurie_init (n : nat) : nat -> R :=
  fold_left (fun b j => upd b j (INR j * INR j / (4 * INR j * INR j - 1))) (seq 1 ((3 * n + 1) / 2)) (upd (fun _ => 0) 0 2).
(** kronrod.py:210-244 *)
Definition laurie (n : nat) : nat -> R :=
  let b := laurie_init n in
  let t := upd (fun _ => 0) 1 (b (n + 1)%nat) in
  let '(s, t) := fold_left (laurie_outer1 n b) (seq 0 (n - 1)) (fun _ => 0, t) in
  let s := fold_left (fun s j => upd s (j + 1) (s j)) (rev (seq 0 (n / 2 + 1))) s in
  let '(b, _, _) := fold_left (laurie_outer2 n) (seq (n - 1) (2 * n - 2 - (n - 1))) (b, s, t) in
  b.
(** kronrod.py:246-247 *)
Definition kronrod_b (n : nat) : nat -> R :=
  fold_left (fun b j => upd b j (sqrt (b (j + 1)%nat))) (seq 0 (2 * n)) (laurie n).
(** [range(1, n + 1, 2)] *)
Definition odd_range (n : nat) : list nat := map (fun i => (2 * i + 1)%nat) (seq 0 ((n + 1) / 2)).
(** kronrod.py:190-265 *)
Definition kronrod (eigvalsh : eigvalsh_t) (n : nat) : res (list R * list R * list R) :=
  if (n <? 1)%nat then Err ValueError
  else
    let b := kronrod_b n in
    let x := eignewt eigvalsh b (2 * n + 1) (n + 1) in
    let w := map (fun i => 2 * eigvec1 b (nth i x 0) (2 * n + 1) 0%nat ^ 2) (seq 0 (n + 1)) in
    let gw := map (fun i => 2 * eigvec1 legendre_b (nth i x 0) n 0%nat ^ 2) (odd_range n) in
    Ok (x, w, gw).

(** [l[::2]] *)
Fixpoint every2 (l : list R) : list R :=
  match l with
  | x :: _ :: l' => x :: every2 l'
  | _ => l
  end.
(** kronrod.py:272-297 *)
Record krule := mkKrule {
  kr_nodes : list R;
  kr_weights : list R;
  kr_gauss_weights : list R;   (* weights_at_gauss_nodes *)
  kr_exact : nat;
  kr_gauss : quad              (* gauss_quadrature *)
}.
(** kronrod.py:327-360; [k[-2::-1]] are the entries but the last, backwards *)
Definition assemble_kronrod (n : nat) (data : list R * list R * list R) : krule :=
  let '(x, w, gw) := data in
  let gauss_neg := every2 (tl x) in
  let w_gauss := every2 (tl w) in
  let kron_neg := every2 x in
  let w_kron := every2 w in
  let '(gauss_x, gauss_w, kron_x, kron_w, kron_gauss_w) :=
    if (n mod 2 =? 1)%nat
    then (removelast gauss_neg ++ [0] ++ map Ropp (rev (removelast gauss_neg)),
          removelast gw ++ [last gw 0] ++ rev (removelast gw),
          kron_neg ++ map Ropp (rev kron_neg),
          w_kron ++ rev w_kron,
          removelast w_gauss ++ [last w 0] ++ rev (removelast w_gauss))
    else (gauss_neg ++ map Ropp (rev gauss_neg),
          gw ++ rev gw,
          removelast kron_neg ++ [0] ++ map Ropp (rev (removelast kron_neg)),
          removelast w_kron ++ [last w_kron 0] ++ rev (removelast w_kron),
          w_gauss ++ rev w_gauss) in
  mkKrule kron_x kron_w kron_gauss_w (3 * n + 1)
          (mkQuad true 1 (map (fun t => [t]) gauss_x) gauss_w (Some (degree (2 * n - 1)))).
(** kronrod.py:326-360 *)
Definition make_kronrod_quadrature (eigvalsh : eigvalsh_t) (n : nat) : res krule :=
  let* data := kronrod eigvalsh n in Ok (assemble_kronrod n data).
(** kronrod.py:299-318, for a pointwise integrand *)
Definition kr_call (k : krule) (f : R -> res R) : res R :=
  let* fg := mapM (fun p => f (nth 0 p 0)) (q_nodes (kr_gauss k)) in
  if negb (length fg =? length (kr_gauss_weights k))%nat then Err ValueError
  else
    let* fk := mapM f (kr_nodes k) in
    if negb (length fk =? length (kr_weights k))%nat then Err ValueError
    else Ok (dotR fg (kr_gauss_weights k) + dotR fk (kr_weights k)).

(** ** quadgk *)
(** Computations that call the integrand: the points of the calls, in order, and the
    outcome.  An integrand that returns NaN or an infinity somewhere makes _evalrule raise
    ValueError (kronrod.py:402-406): such values are represented by [Err ValueError]. *)
Definition tr (A : Type) : Type := (list R * res A)%type.
Definition tret {A} (a : A) : tr A := ([], Ok a).
Definition traise {A} (e : pyexc) : tr A := ([], Err e).
Definition tlift {A} (r : res A) : tr A := ([], r).
Definition tbind {A B} (m : tr A) (k : A -> tr B) : tr B :=
  match m with
  | (l, Ok a) => let '(l', r) := k a in (l ++ l', r)
  | (l, Err e) => (l, Err e)
  end.
Notation "'do' x <- m ; k" := (tbind m (fun x => k)) (at level 200, x name, m at level 100, k at level 200).
(** A user's function. *)
Definition feval (f : R -> res R) (x : R) : tr R := ([x], f x).

(** A break point: a Python int or float (other types, like complex numbers, for which the
    code skips the treatment of infinite intervals, are not modelled). *)
Inductive pt := Fin (x : R) | PInf | MInf.
Definition is_inf (p : pt) : bool := match p with Fin _ => false | _ => true end.

(** kronrod.py:77-82; the end points of a segment that exists are finite *)
Record segment := mkSeg { seg_a : R; seg_b : R; seg_int : R; seg_err : R }.
(** kronrod.py:85-87 *)
Definition seg_lt (s o : segment) : bool := Rlt_bool (seg_err o) (seg_err s).

(** kronrod.py:386-389: the body of the loop, state (i_k, i_g) *)
Definition evalrule_step (f : R -> tr R) (a s : R) (x w gw : list R) (st : R * R) (i : nat) : tr (R * R) :=
  let '(i_k, i_g) := st in
  let xg := nth (2 * i - 1) x 0 in
  let xk := nth (2 * i - 2) x 0 in
  do f1 <- f (a + (1 + xg) * s);
  do f2 <- f (a + (1 - xg) * s);
  let fg := f1 + f2 in
  do f3 <- f (a + (1 + xk) * s);
  do f4 <- f (a + (1 - xk) * s);
  let fk := f3 + f4 in
  tret (i_k + (fg * nth (2 * i - 1) w 0 + fk * nth (2 * i - 2) w 0), i_g + fg * nth (i - 1) gw 0).
Fixpoint tfold {S A} (f : S -> A -> tr S) (l : list A) (s : S) : tr S :=
  match l with
  | [] => tret s
  | a :: l' => do s' <- f s a; tfold f l' s'
  end.
(** kronrod.py:363-407 for finite end points *)
Definition evalrule_fin (f : R -> tr R) (a b : R) (x w gw : list R) : tr segment :=
  let s := 1 / 2 * (b - a) in
  let nx := length x in
  let ngw := length gw in
  let n1 := (1 - nx mod 2)%nat in
  do ik_ig <- tfold (evalrule_step f a s x w gw) (seq 1 (ngw - n1)) (0, 0);
  let '(i_k, i_g) := ik_ig in
  do ik_ig <-
    (if (n1 =? 0)%nat
     then do f0 <- f (a + s); tret (i_k + f0 * last w 0, i_g)
     else
       do f0 <- f (a + s);
       let i_g := i_g + f0 * last gw 0 in
       do f1 <- f (a + (1 + nth (nx - 2) x 0) * s);
       do f2 <- f (a + (1 - nth (nx - 2) x 0) * s);
       tret (i_k + (f0 * last w 0 + (f1 + f2) * nth (length w - 2) w 0), i_g));
  let '(i_k, i_g) := ik_ig in
  let i_k := i_k * s in
  let i_g := i_g * s in
  tret (mkSeg a b i_k (Rabs (i_k - i_g))).
(** kronrod.py:363-407; with an infinite end point [i_k * s] is infinite or NaN (the calls
    of the integrand at non-finite points are not recorded) *)
Definition evalrule (f : R -> tr R) (a b : pt) (x w gw : list R) : tr segment :=
  match a, b with
  | Fin a, Fin b => evalrule_fin f a b x w gw
  | _, _ => traise ValueError
  end.

(** kronrod.py:414-426; [1.0 / (1.0 - t2)] is infinite (numpy) for t = -1, 1 *)
Definition both_inf_g (f : R -> tr R) (t : R) : tr R :=
  let t2 := t * t in
  if Req_bool (1 - t2) 0 then traise ValueError
  else
    let den := 1 / (1 - t2) in
    do v <- f (t * den); tret (v * (1 + t2) * den * den).
Definition both_inf_map (p : pt) : res R :=
  match p with
  | PInf => Ok 1
  | MInf => Ok (-1)
  | Fin x => Ok (2 * x / (1 + sqrt (1 ^ 2 + (2 * x) ^ 2)))
  end.
(** kronrod.py:429-445 *)
Definition semi_neg_g (f : R -> tr R) (s0 t : R) : tr R :=
  if Req_bool (1 - t) 0 then traise ValueError
  else
    let den := 1 / (1 - t) in
    do v <- f (s0 - t * den); tret (v * den * den).
Definition semi_map (diff : R) : res R :=
  if Req_bool diff 0 then Ok 0
  else if Req_bool (1 + 1 / diff) 0 then Err ZeroDivision
  else Ok (1 / (1 + 1 / diff)).
Definition semi_neg_map (s0 : R) (p : pt) : res R :=
  match p with Fin x => semi_map (s0 - x) | _ => Ok 1 end.
(** kronrod.py:448-462 *)
Definition semi_pos_g (f : R -> tr R) (s0 t : R) : tr R :=
  if Req_bool (1 - t) 0 then traise ValueError
  else
    let den := 1 / (1 - t) in
    do v <- f (s0 + t * den); tret (v * den * den).
Definition semi_pos_map (s0 : R) (p : pt) : res R :=
  match p with Fin x => semi_map (x - s0) | _ => Ok 1 end.

Record heapq_t := mkHeapq {
  heappush : list segment -> segment -> list segment;
  heappop : list segment -> option (segment * list segment)
}.
Definition sum_by (g : segment -> R) (h : list segment) : R := fold_left (fun acc s => acc + g s) h 0.

Section Quadgk.
  Context (eigvalsh : eigvalsh_t) (hq : heapq_t).

  (** kronrod.py:498-501 *)
  Fixpoint initial_heap (f : R -> tr R) (x w gw : list R) (s : list pt) (heap : list segment) : tr (list segment) :=
    match s with
    | a :: ((b :: _) as rest) =>
        do seg <- evalrule f a b x w gw;
        initial_heap f x w gw rest (heappush hq heap seg)
    | _ => tret heap
    end.

  Record gkstate := mkGk { gk_heap : list segment; gk_int : R; gk_err : R; gk_evals : nat }.
  (** kronrod.py:508-510 *)
  Definition go_on (abstol reltol : R) (maxevals : nat) (st : gkstate) : bool :=
    (Rlt_bool abstol (gk_err st) && Rlt_bool (reltol * Rabs (gk_int st)) (gk_err st) && (gk_evals st <? maxevals)%nat)%bool.
  (** kronrod.py:511-520 *)
  Definition refine (f : R -> tr R) (n : nat) (x w gw : list R) (st : gkstate) : tr gkstate :=
    match heappop hq (gk_heap st) with
    | None => traise IndexError
    | Some (worst, heap) =>
        let mid := (seg_a worst + seg_b worst) * (1 / 2) in
        do s1 <- evalrule f (Fin (seg_a worst)) (Fin mid) x w gw;
        do s2 <- evalrule f (Fin mid) (Fin (seg_b worst)) x w gw;
        let heap := heappush hq (heappush hq heap s1) s2 in
        tret (mkGk heap
                   (gk_int st - seg_int worst + seg_int s1 + seg_int s2)
                   (gk_err st - seg_err worst + seg_err s1 + seg_err s2)
                   (gk_evals st + (4 * n + 2)))
    end.
  (** kronrod.py:508-520; [fuel] bounds the number of iterations, see C42_terminates *)
  Fixpoint adapt (f : R -> tr R) (n : nat) (x w gw : list R) (abstol reltol : R) (maxevals fuel : nat) (st : gkstate) : tr gkstate :=
    if go_on abstol reltol maxevals st
    then match fuel with
         | O => traise OutOfFuel
         | S k => do st' <- refine f n x w gw st; adapt f n x w gw abstol reltol maxevals k st'
         end
    else tret st.
  (** kronrod.py:503-505 *)
  Definition initial_state (n : nat) (heap : list segment) : gkstate :=
    mkGk heap (sum_by seg_int heap) (sum_by seg_err heap) ((2 * n + 1) * length heap).
  (** kronrod.py:495-525 *)
  Definition quadgk_finite (f : R -> tr R) (s : list pt) (n : nat) (abstol reltol : R) (maxevals : nat) : tr (R * R) :=
    do data <- tlift (kronrod eigvalsh n);
    let '(x, w, gw) := data in
    do heap <- initial_heap f x w gw s [];
    do st <- adapt f n x w gw abstol reltol maxevals maxevals (initial_state n heap);
    tret (sum_by seg_int (gk_heap st), sum_by seg_err (gk_heap st)).
  (** kronrod.py:481-493: after the change of variables all break points are finite, so that the
      recursive call goes on at line 495 *)
  Definition do_quadgk (f : R -> tr R) (s : list pt) (n : nat) (abstol reltol : R) (maxevals : nat) : tr (R * R) :=
    let s1 := hd PInf s in
    let s2 := last s PInf in
    match s1, s2 with
    | Fin _, Fin _ => quadgk_finite f s n abstol reltol maxevals
    | Fin s0, _ => do sm <- tlift (mapM (semi_pos_map s0) s);
                   quadgk_finite (semi_pos_g f s0) (map Fin sm) n abstol reltol maxevals
    | _, Fin s0 => do sm <- tlift (mapM (semi_neg_map s0) s);
                   quadgk_finite (semi_neg_g f s0) (map Fin (rev sm)) n abstol reltol maxevals
    | _, _ => do sm <- tlift (mapM both_inf_map s);
              quadgk_finite (both_inf_g f) (map Fin sm) n abstol reltol maxevals
    end.
  (** kronrod.py:532-575 *)
  Definition quadgk (f : R -> res R) (pts : list pt) (abstol reltol : R) (maxevals order : nat) : tr (R * R) :=
    if (length pts <? 2)%nat then traise ValueError
    else do_quadgk (feval f) pts order abstol reltol maxevals.
End Quadgk.
