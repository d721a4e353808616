(** * C42: the adaptive loop of quadgk *)
From Coq Require Import List Arith Bool ZArith QArith Reals Lra Lia Permutation.
From Verif Require Import Py RSum EnumFacts ModelNd ModelShapes ModelNodes ModelModes ModelQuad ModelGauss ModelKronrod.
From Verif Require Import ProofMonomial ProofQuad PropsTools ProofGauss2 ProofKronrod ProofQuadgk PropsKronrod.
Import ListNotations.
Local Open Scope R_scope.

(** Conventions (ProofQuadgk.v).
    - [heap_ok seg_lt hq]: heappush adds an element, heappop removes one that no other
      element precedes in the order [seg_lt], i.e. in Segment.__lt__.
    - [one_eval f]: [f] calls the user's function once for each value it returns.
    - [steps hq f n x w gw k st]: [k] executions of the loop body from [st].
    - [bisected m0 m]: [m] comes from the list of break points [m0] by inserting mid
      points; [panels m]: the pairs of consecutive points.
    - [good f x w gw m0 calls st]: the segments in the heap are, up to order, the panels of a
      [bisected] mesh, each evaluated by _evalrule with its calls among [calls]; integral
      and error are the sums over the heap; the evaluation count is the number of calls. *)
Section Loop.
  Context (hq : heapq_t) (f : R -> tr R) (n : nat) (x w gw : list R).
  Hypothesis HQ : heap_ok seg_lt hq.
  Hypothesis Hf : one_eval f.
  Hypothesis Hn : (1 <= n)%nat.
  Hypothesis HR : rule_size n (x, w, gw).

  (** At every step. *)
  Theorem C42_invariant ms l0 h k l st : (2 <= length ms)%nat ->
    initial_heap hq f x w gw (map Fin ms) [] = (l0, Ok h) ->
    steps hq f n x w gw k (initial_state n h) = (l, Ok st) ->
    good f x w gw ms (l0 ++ l) st
    /\ length (gk_heap st) = (length ms - 1 + k)%nat
    /\ gk_evals st = ((2 * n + 1) * (length ms - 1 + 2 * k))%nat.
  Proof.
    destruct HR as (Lx & Lw & Lg). destruct HQ as (inv & I0 & I1 & I2). intros L2 E0 E1.
    destruct (initial_good hq f n x w gw Hf Hn Lx Lg inv I0 I1 ms l0 h E0) as [V0 G0].
    destruct (steps_good hq f n x w gw Hf Hn Lx Lg inv I1 I2 ms L2 k l0 (initial_state n h) l st V0 G0 E1) as (V1 & G1 & EV).
    assert (P0 : forall m : list R, length (panels m) = (length m - 1)%nat).
    { induction m as [|a m IHm]; [reflexivity|]. destruct m as [|b m]; [reflexivity|]. change (panels (a :: b :: m)) with ((a, b) :: panels (b :: m)). cbn [length] in *. rewrite IHm. lia. }
    assert (E2 : gk_evals (initial_state n h) = ((2 * n + 1) * (length ms - 1))%nat).
    { cbn [initial_state gk_evals]. f_equal. destruct (initial_heap_inv hq f n x w gw Hf Hn Lx Lg inv I0 I1 ms [] l0 h I0 E0) as (_ & _ & new & P & M & _).
      rewrite app_nil_r in P. rewrite (Permutation_length P), <- (map_length seg_ends), M. apply P0. }
    split; [easy|]. split; [|rewrite EV, E2; ring].
    clear EV E2 G1 V1. assert (LH : length h = (length ms - 1)%nat).
    { destruct (initial_heap_inv hq f n x w gw Hf Hn Lx Lg inv I0 I1 ms [] l0 h I0 E0) as (_ & _ & new & P & M & _).
      rewrite app_nil_r in P. rewrite (Permutation_length P), <- (map_length seg_ends), M. apply P0. }
    change h with (gk_heap (initial_state n h)) in LH, V0. revert V0 G0 E1 LH. generalize (initial_state n h) as s0. clear E0. revert l0 l.
    generalize (length ms - 1)%nat as q. induction k as [|k IH]; intros q l0 l s0 V0 G0 E1 LH; cbn [steps] in E1.
    - unfold tret in E1. injection E1 as _ <-. lia.
    - tinv E1. destruct (refine_inv hq f n x w gw Hf Hn Lx Lg inv I1 I2 _ _ _ V0 T (heap_ne f n x w gw Hn Lx Lg _ _ _ L2 G0)) as (V1 & L1 & worst & rest & s1 & s2 & l1' & l2' & A1 & A2 & A3 & A4 & A5 & A6 & A7 & A8 & A9 & A10 & A11).
      assert (G1 : good f x w gw ms (l0 ++ l1) a) by (eapply refine_good; eassumption).
      rewrite (IH (S q) _ _ _ V1 G1 T0); [lia|]. apply Permutation_length in A1, A6. cbn [length] in A1, A6. lia.
  Qed.

  (** The panel that is split has the largest error; its halves replace it. *)
  Theorem C42_worst ms l0 h k l st l' st' : (2 <= length ms)%nat ->
    initial_heap hq f x w gw (map Fin ms) [] = (l0, Ok h) ->
    steps hq f n x w gw k (initial_state n h) = (l, Ok st) ->
    refine hq f n x w gw st = (l', Ok st') ->
    exists worst rest s1 s2, Permutation (gk_heap st) (worst :: rest) /\ Permutation (gk_heap st') (s1 :: s2 :: rest)
      /\ (forall s, In s (gk_heap st) -> seg_err s <= seg_err worst)
      /\ seg_a s1 = seg_a worst /\ seg_b s1 = (seg_a worst + seg_b worst) / 2
      /\ seg_a s2 = (seg_a worst + seg_b worst) / 2 /\ seg_b s2 = seg_b worst.
  Proof.
    destruct HR as (Lx & Lw & Lg). destruct HQ as (inv & I0 & I1 & I2). intros L2 E0 E1 E2.
    destruct (initial_good hq f n x w gw Hf Hn Lx Lg inv I0 I1 ms l0 h E0) as [V0 G0].
    destruct (steps_good hq f n x w gw Hf Hn Lx Lg inv I1 I2 ms L2 k l0 (initial_state n h) l st V0 G0 E1) as (V1 & G1 & EV).
    destruct (refine_inv hq f n x w gw Hf Hn Lx Lg inv I1 I2 _ _ _ V1 E2 (heap_ne f n x w gw Hn Lx Lg _ _ _ L2 G1)) as (_ & L1 & worst & rest & s1 & s2 & l1' & l2' & A1 & A2 & A3 & A4 & A5 & A6 & A7 & A8 & A9 & A10 & A11).
    exists worst, rest, s1, s2. split; [easy|]. split; [easy|]. split.
    - intros s Hs. rewrite A1 in Hs. destruct Hs as [<-|Hs]; [lra|]. now apply A2.
    - injection A7 as -> ->. injection A8 as -> ->. repeat split; field.
  Qed.

  (** The loop: it runs while the tolerances are not met and the budget is not used up,
      and stops as soon as that fails. *)
  Theorem C42_stop abstol reltol maxevals fuel st l st' :
    adapt hq f n x w gw abstol reltol maxevals fuel st = (l, Ok st') ->
    (gk_err st' <= abstol \/ gk_err st' <= reltol * Rabs (gk_int st') \/ (maxevals <= gk_evals st')%nat)
    /\ exists k, steps hq f n x w gw k st = (l, Ok st')
         /\ forall j lj sj, (j < k)%nat -> steps hq f n x w gw j st = (lj, Ok sj) ->
              abstol < gk_err sj /\ reltol * Rabs (gk_int sj) < gk_err sj /\ (gk_evals sj < maxevals)%nat.
  Proof.
    destruct HR as (Lx & Lw & Lg). intros E. destruct (adapt_inv hq f n x w gw Hn Lx Lg _ _ _ _ _ _ _ E) as (G & k & K1 & K2 & K3). split.
    - unfold go_on in G. destruct (Rle_lt_dec (gk_err st') abstol); [now left|]. rewrite Rlt_bool_true in G by easy.
      destruct (Rle_lt_dec (gk_err st') (reltol * Rabs (gk_int st'))); [right; now left|]. rewrite Rlt_bool_true in G by easy. cbn [andb] in G.
      apply Nat.ltb_ge in G. right. now right.
    - exists k. split; [easy|]. intros j lj sj Hj Ej. specialize (K3 j lj sj Hj Ej). unfold go_on in K3.
      apply andb_prop in K3. destruct K3 as [K3 K5]. apply andb_prop in K3. destruct K3 as [K3 K4]. apply Nat.ltb_lt in K5.
      repeat split; [| |easy].
      + destruct (Rle_lt_dec (gk_err sj) abstol); [|easy]. rewrite Rlt_bool_false in K3 by easy. discriminate.
      + destruct (Rle_lt_dec (gk_err sj) (reltol * Rabs (gk_int sj))); [|easy]. rewrite Rlt_bool_false in K4 by easy. discriminate.
  Qed.
End Loop.

(** ** The whole function on finite break points *)
Lemma initial_heap_total hq phi n x w gw ms h : (1 <= n)%nat -> rule_size n (x, w, gw) ->
  exists l h', initial_heap hq (feval (fun t => Ok (phi t))) x w gw (map Fin ms) h = (l, Ok h').
Proof.
  intros Hn HR. revert h. induction ms as [|a ms IH]; intros h; [now exists [], h|]. destruct ms as [|b ms]; [now exists [], h|].
  destruct (C41_panel n (x, w, gw) phi a b Hn HR) as (calls & KI & GI & sg & E & _).
  destruct (IH (heappush hq h sg)) as (l & h' & E'). exists (calls ++ l), h'. cbn [map initial_heap]. cbn [map] in E'. rewrite E. now apply tbind_ok.
Qed.
Lemma refine_total hq phi n x w gw st : (1 <= n)%nat -> rule_size n (x, w, gw) -> (exists s h, heappop hq (gk_heap st) = Some (s, h)) ->
  exists l st', refine hq (feval (fun t => Ok (phi t))) n x w gw st = (l, Ok st').
Proof.
  intros Hn HR (s & h & E). unfold refine. rewrite E.
  destruct (C41_panel n (x, w, gw) phi (seg_a s) ((seg_a s + seg_b s) * (1 / 2)) Hn HR) as (c1 & ? & ? & s1 & E1 & _).
  destruct (C41_panel n (x, w, gw) phi ((seg_a s + seg_b s) * (1 / 2)) (seg_b s) Hn HR) as (c2 & ? & ? & s2 & E2 & _).
  do 2 eexists. cbv zeta. rewrite E1. apply tbind_ok. rewrite E2. apply tbind_ok. reflexivity.
Qed.
Lemma adapt_total hq phi n x w gw abstol reltol maxevals (inv : list segment -> Prop) ms : (1 <= n)%nat -> rule_size n (x, w, gw) -> (2 <= length ms)%nat ->
  (forall h s, inv h -> inv (heappush hq h s) /\ Permutation (s :: h) (heappush hq h s)) ->
  (forall h, inv h -> h <> [] -> exists w h', heappop hq h = Some (w, h') /\ inv h' /\ Permutation h (w :: h') /\ forall s, In s h' -> seg_lt s w = false) ->
  forall fuel st calls, inv (gk_heap st) -> good (feval (fun t => Ok (phi t))) x w gw ms calls st -> (maxevals <= gk_evals st + fuel)%nat ->
  exists l st', adapt hq (feval (fun t => Ok (phi t))) n x w gw abstol reltol maxevals fuel st = (l, Ok st').
Proof.
  intros Hn HR L2 I1 I2. pose proof HR as (Lx & Lw & Lg). induction fuel as [|fuel IH]; intros st calls V G B; cbn [adapt]; destruct (go_on abstol reltol maxevals st) eqn:GO;
    try (now exists [], st).
  - unfold go_on in GO. apply andb_prop in GO. destruct GO as [_ GO]. apply Nat.ltb_lt in GO. lia.
  - assert (NE := heap_ne _ n x w gw Hn Lx Lg _ _ _ L2 G). destruct (I2 _ V NE) as (w0 & h' & PP & _).
    destruct (refine_total hq phi n x w gw st Hn HR) as (l & st1 & RE); [now exists w0, h'|]. rewrite RE.
    destruct (refine_inv hq _ n x w gw (feval_one_eval _) Hn Lx Lg inv I1 I2 _ _ _ V RE NE) as (V1 & L1 & worst & rest & s1 & s2 & l1' & l2' & A1 & A2 & A3 & A4 & A5 & A6 & A7 & A8 & A9 & A10 & A11).
    assert (G1 : good (feval (fun t => Ok (phi t))) x w gw ms (calls ++ l) st1) by (eapply refine_good; eassumption).
    destruct (IH st1 _ V1 G1 ltac:(lia)) as (l2 & st2 & E2). exists (l ++ l2), st2. now apply tbind_ok.
Qed.

(** For a real-valued integrand and finite break points quadgk returns, and its result
    is the sum, over the panels of a mesh that bisects the given intervals, of the Kronrod
    rule (error: of the distances between Kronrod and Gauss rule) on the panels.  It
    stops when a tolerance is met or the budget is used up, at most one bisection
    ([4 n + 2] evaluations) beyond the budget; [calls] lists all evaluations. *)
Theorem C42_quadgk eigvalsh hq phi ms abstol reltol maxevals n : eigvalsh_sized eigvalsh -> heap_ok seg_lt hq ->
  (1 <= n)%nat -> (2 <= length ms)%nat ->
  exists k m vals errs calls I E,
    make_kronrod_quadrature eigvalsh n = Ok k
    /\ quadgk eigvalsh hq (fun t => Ok (phi t)) (map Fin ms) abstol reltol maxevals n = (calls, Ok (I, E))
    /\ bisected ms m
    /\ Forall2 (fun p v => exists KI, kr_call k (fun y => Ok (phi ((fst p + snd p) / 2 + (snd p - fst p) / 2 * y))) = Ok KI /\ v = (snd p - fst p) / 2 * KI) (panels m) vals
    /\ Forall2 (fun p e => exists KI GI, kr_call k (fun y => Ok (phi ((fst p + snd p) / 2 + (snd p - fst p) / 2 * y))) = Ok KI
            /\ q_call (kr_gauss k) (fun y => Ok (phi ((fst p + snd p) / 2 + (snd p - fst p) / 2 * nth 0 y 0))) = Ok GI
            /\ e = Rabs ((snd p - fst p) / 2 * (KI - GI))) (panels m) errs
    /\ I = fold_right Rplus 0 vals /\ E = fold_right Rplus 0 errs
    /\ (E <= abstol \/ E <= reltol * Rabs I \/ (maxevals <= length calls)%nat)
    /\ length calls = ((2 * n + 1) * (length ms - 1 + 2 * (length m - length ms)))%nat
    /\ (m = ms \/ (length calls < maxevals + (4 * n + 2))%nat).
Proof.
  intros HS HQ Hn L2. pose proof HQ as (inv & I0 & I1 & I2).
  destruct (proj2 (C41_size eigvalsh n HS) Hn) as (data & ED & HR). destruct data as [[x w] gw]. pose proof HR as (Lx & Lw & Lg).
  set (f := feval (fun t => Ok (phi t))).
  destruct (initial_heap_total hq phi n x w gw ms [] Hn HR) as (l0 & h & E0). fold f in E0.
  destruct (initial_good hq f n x w gw (feval_one_eval _) Hn Lx Lg inv I0 I1 ms l0 h E0) as [V0 G0].
  destruct (adapt_total hq phi n x w gw abstol reltol maxevals inv ms Hn HR L2 I1 I2 maxevals (initial_state n h) l0 V0 G0 ltac:(lia)) as (l1 & st & EA). fold f in EA.
  destruct (C42_stop hq f n x w gw Hn HR abstol reltol maxevals maxevals _ _ _ EA) as (ST & kk & K1 & K2).
  destruct (C42_invariant hq f n x w gw HQ (feval_one_eval _) Hn HR ms l0 h kk l1 st L2 E0 K1) as (G & LH & EV).
  destruct G as [(m & BM & PM) GE GI GR GV].
  assert (P0 : forall m : list R, length (panels m) = (length m - 1)%nat).
  { induction m0 as [|a m0 IHm]; [reflexivity|]. destruct m0 as [|b m0]; [reflexivity|]. change (panels (a :: b :: m0)) with ((a, b) :: panels (b :: m0)). cbn [length] in *. rewrite IHm. lia. }
  assert (LM : length m = (length ms + kk)%nat).
  { apply Permutation_length in PM. rewrite map_length, LH, P0 in PM. destruct (bisected_ends _ _ BM) as (_ & _ & B & _). lia. }
  (* order the segments like the panels *)
  destruct (Permutation_map_inv seg_ends _ (Permutation_sym PM)) as (segs & ES & PS).
  exists (assemble_kronrod n (x, w, gw)), m, (map seg_int segs), (map seg_err segs), (l0 ++ l1), (seg_sum seg_int (gk_heap st)), (seg_sum seg_err (gk_heap st)).
  split; [unfold make_kronrod_quadrature; now rewrite ED|].
  split.
  { unfold quadgk. rewrite map_length. destruct (Nat.ltb_spec (length ms) 2); [lia|]. unfold do_quadgk.
    assert (H1 : exists a, hd PInf (map Fin ms) = Fin a) by (destruct ms as [|a ms]; [cbn in L2; lia|now exists a]).
    assert (H2 : exists b, last (map Fin ms) PInf = Fin b).
    { destruct (exists_last (l := ms)) as (l' & y & ->); [intros ->; cbn in L2; lia|]. exists y. rewrite map_app. cbn [map]. apply last_last. }
    destruct H1 as [a H1], H2 as [b H2]. cbv zeta. rewrite H1, H2. unfold quadgk_finite. rewrite ED. fold f. cbn [tlift]. change (l0 ++ l1) with ([] ++ l0 ++ l1). apply tbind_ok.
    rewrite E0. apply tbind_ok. rewrite EA. erewrite tbind_ok by reflexivity. now rewrite app_nil_r, !sum_by_seg_sum. }
  split; [easy|].
  assert (SG : forall s, In s segs -> exists KI GI, kr_call (assemble_kronrod n (x, w, gw)) (fun y => Ok (phi ((fst (seg_ends s) + snd (seg_ends s)) / 2 + (snd (seg_ends s) - fst (seg_ends s)) / 2 * y))) = Ok KI
      /\ q_call (kr_gauss (assemble_kronrod n (x, w, gw))) (fun y => Ok (phi ((fst (seg_ends s) + snd (seg_ends s)) / 2 + (snd (seg_ends s) - fst (seg_ends s)) / 2 * nth 0 y 0))) = Ok GI
      /\ seg_int s = (snd (seg_ends s) - fst (seg_ends s)) / 2 * KI /\ seg_err s = Rabs ((snd (seg_ends s) - fst (seg_ends s)) / 2 * (KI - GI))).
  { intros s Hs. destruct (GE s) as (pts & Q1 & _); [apply (Permutation_in s (Permutation_sym PS) Hs)|].
    destruct (C41_panel n (x, w, gw) phi (seg_a s) (seg_b s) Hn HR) as (calls & KI & GI' & sg & R1 & _ & _ & R2 & R3 & R4 & R5 & _).
    fold f in R1. rewrite R1 in Q1. injection Q1 as _ ->. exists KI, GI'. unfold seg_ends. cbn [fst snd]. auto. }
  split; [|split].
  { rewrite ES. clear -SG. induction segs as [|s segs IH]; cbn [map]; [constructor|]. constructor.
    - destruct (SG s (or_introl eq_refl)) as (KI & GI & A1 & A2 & A3 & A4). exists KI. auto.
    - apply IH. intros; apply SG. now right. }
  { rewrite ES. clear -SG. induction segs as [|s segs IH]; cbn [map]; [constructor|]. constructor.
    - destruct (SG s (or_introl eq_refl)) as (KI & GI & A1 & A2 & A3 & A4). exists KI, GI. auto.
    - apply IH. intros; apply SG. now right. }
  split; [now apply seg_sum_perm|]. split; [now apply seg_sum_perm|].
  split; [rewrite <- GI, <- GR, <- GV; exact ST|].
  split; [rewrite <- GV, EV; do 2 f_equal; lia|].
  destruct kk as [|kk].
  - left. destruct BM as [|l a b r BM]; [reflexivity|]. destruct (bisected_ends _ _ BM) as (_ & _ & B & _).
    rewrite !app_length in *. cbn [length] in *. lia.
  - right. rewrite <- GV, EV. clear -K1 K2 EV HQ HR L2 E0 Hn GV.
    assert (Q : forall a b s l s', steps hq f n x w gw (a + b) s = (l, Ok s') -> exists l1 s1, steps hq f n x w gw a s = (l1, Ok s1)).
    { induction a as [|a IH]; intros b s l s' E; [now exists [], s|]. cbn [Nat.add steps] in *. tinv E. destruct (IH _ _ _ _ T0) as (lx & s2 & E2). eexists. exists s2. rewrite T. apply tbind_ok. exact E2. }
    replace (S kk) with (kk + 1)%nat in K1 by lia. destruct (Q _ _ _ _ _ K1) as (lk & sk & EK).
    destruct (K2 kk lk sk ltac:(lia) EK) as (_ & _ & B).
    destruct (C42_invariant hq f n x w gw HQ (feval_one_eval _) Hn HR ms l0 h kk lk sk L2 E0 EK) as (_ & _ & EV'). nia.
Qed.

(** Fewer than two break points are refused. *)
Theorem C42_too_few eigvalsh hq f pts abstol reltol maxevals n : (length pts < 2)%nat ->
  quadgk eigvalsh hq f pts abstol reltol maxevals n = ([], Err ValueError).
Proof. intros H. unfold quadgk. now destruct (Nat.ltb_spec (length pts) 2); [|lia]. Qed.

(** ** A priority queue: the list itself, searched for its first minimal element *)
Fixpoint pop_min (h : list segment) : option (segment * list segment) :=
  match h with
  | [] => None
  | s :: h' => match pop_min h' with
               | None => Some (s, [])
               | Some (m, r) => if seg_lt m s then Some (m, s :: r) else Some (s, h')
               end
  end.
Definition list_heap : heapq_t := mkHeapq (fun h s => s :: h) pop_min.
Lemma seg_lt_false s o : seg_lt s o = false <-> seg_err s <= seg_err o.
Proof.
  unfold seg_lt. destruct (Rle_lt_dec (seg_err s) (seg_err o)); [|rewrite Rlt_bool_true by easy; split; [discriminate|lra]].
  rewrite Rlt_bool_false by easy. easy.
Qed.
Lemma pop_min_ok h : h <> [] -> exists w h', pop_min h = Some (w, h') /\ Permutation h (w :: h') /\ forall s, In s h' -> seg_lt s w = false.
Proof.
  induction h as [|s h IH]; [congruence|]. intros _. cbn [pop_min]. destruct h as [|s' h].
  - exists s, []. cbn. repeat split; auto. intros ? [].
  - destruct IH as (m & r & E & P & H); [discriminate|]. rewrite E. destruct (seg_lt m s) eqn:LT.
    + exists m, (s :: r). split; [easy|]. split; [rewrite P; apply perm_swap|]. intros t [<-|Ht]; [|now apply H].
      apply seg_lt_false. unfold seg_lt in LT. destruct (Rle_lt_dec (seg_err s) (seg_err m)); [easy|]. rewrite Rlt_bool_false in LT by lra. discriminate.
    + exists s, (s' :: h). split; [easy|]. split; [easy|]. intros t Ht. rewrite P in Ht. apply seg_lt_false in LT. apply seg_lt_false.
      destruct Ht as [<-|Ht]; [easy|]. apply H, seg_lt_false in Ht. lra.
Qed.
Example C42_heap_ex : heap_ok seg_lt list_heap.
Proof.
  exists (fun _ => True). split; [easy|]. split; [intros; split; [easy|reflexivity]|]. intros h _ NE. destruct (pop_min_ok h NE) as (w & h' & A & B & C). now exists w, h'.
Qed.
Example C42_one_eval_ex : one_eval (feval (fun t => Ok (t ^ 2))).
Proof. apply feval_one_eval. Qed.
(** |t| on [-1, 2] with the rule [rule2]: a first panel, then two halves. *)
Example C42_mesh_ex : bisected [-1; 2] [-1; (-1 + 2) * (1 / 2); 2] /\ panels [-1; 1/2; 2] = [(-1, 1/2); (1/2, 2)].
Proof. split; [apply (bis_step _ [] (-1) 2 []), bis_refl|reflexivity]. Qed.

Print Assumptions C42_invariant.
Print Assumptions C42_worst.
Print Assumptions C42_stop.
Print Assumptions C42_quadgk.
Print Assumptions C42_too_few.
