(** * The adaptive loop of quadgk *)
From Coq Require Import List Arith Bool ZArith QArith Reals Lra Lia Permutation.
From Verif Require Import Py RSum EnumFacts ModelNd ModelShapes ModelNodes ModelModes ModelQuad ModelGauss ModelKronrod.
From Verif Require Import ProofMonomial ProofQuad PropsTools ProofGauss2 ProofKronrod.
Import ListNotations.
Local Open Scope R_scope.

(** ** heapq, relative to the comparison the code gives it *)
Definition heap_ok (lt : segment -> segment -> bool) (hq : heapq_t) : Prop :=
  exists inv : list segment -> Prop, inv []
    /\ (forall h s, inv h -> inv (heappush hq h s) /\ Permutation (s :: h) (heappush hq h s))
    /\ (forall h, inv h -> h <> [] -> exists w h', heappop hq h = Some (w, h') /\ inv h' /\ Permutation h (w :: h')
          /\ forall s, In s h' -> lt s w = false).

(** ** Meshes: lists of break points *)
Fixpoint panels (m : list R) : list (R * R) :=
  match m with a :: ((b :: _) as m') => (a, b) :: panels m' | _ => [] end.
(** [m'] comes from [m] by bisecting panels. *)
Inductive bisected (m : list R) : list R -> Prop :=
| bis_refl : bisected m m
| bis_step l a b r : bisected m (l ++ a :: b :: r) -> bisected m (l ++ a :: (a + b) * (1 / 2) :: b :: r).
Lemma panels_app l a r : panels (l ++ a :: r) = panels (l ++ [a]) ++ panels (a :: r).
Proof.
  induction l as [|x l IH]; [reflexivity|]. destruct l as [|y l].
  - reflexivity.
  - cbn [app panels]. f_equal. exact IH.
Qed.
Lemma in_panels m a b : In (a, b) (panels m) -> exists l r, m = l ++ a :: b :: r.
Proof.
  induction m as [|x m IH]; [intros []|]. destruct m as [|y m]; [intros []|]. intros [E|H].
  - injection E as -> ->. exists [], m. reflexivity.
  - destruct (IH H) as (l & r & E). exists (x :: l), r. now rewrite E.
Qed.
Lemma panels_split l a b r : Permutation (panels (l ++ a :: b :: r)) ((a, b) :: panels (l ++ [a]) ++ panels (b :: r)).
Proof. rewrite panels_app. change (panels (a :: b :: r)) with ((a, b) :: panels (b :: r)). symmetry. apply Permutation_middle. Qed.
Lemma panels_bisect l a c b r : Permutation (panels (l ++ a :: c :: b :: r)) ((a, c) :: (c, b) :: panels (l ++ [a]) ++ panels (b :: r)).
Proof.
  rewrite panels_app. change (panels (a :: c :: b :: r)) with ((a, c) :: (c, b) :: panels (b :: r)). symmetry.
  apply Permutation_cons_app. apply Permutation_middle.
Qed.
Lemma bisected_ends m m' : bisected m m' -> hd 0 m' = hd 0 m /\ last m' 0 = last m 0 /\ (length m <= length m')%nat /\ incl m m'.
Proof.
  induction 1 as [|l a b r H IH]; [repeat split; auto; apply incl_refl|]. destruct IH as (I1 & I2 & I3 & I4). repeat split.
  - rewrite <- I1. destruct l; reflexivity.
  - rewrite <- I2. replace (l ++ a :: (a + b) * (1 / 2) :: b :: r) with ((l ++ [a; (a + b) * (1 / 2)]) ++ (b :: r)) by now rewrite <- app_assoc.
    replace (l ++ a :: b :: r) with ((l ++ [a]) ++ b :: r) by now rewrite <- app_assoc.
    clear. assert (Q : forall k, last (k ++ b :: r) 0 = last (b :: r) 0).
    { induction k as [|x k IHk]; [reflexivity|]. rewrite <- IHk. cbn [app last]. destruct (k ++ b :: r) eqn:E; [now destruct k|reflexivity]. }
    now rewrite !Q.
  - rewrite !app_length in *. cbn in *. lia.
  - intros x Hx. apply I4 in Hx. apply in_app_or in Hx. apply in_or_app. destruct Hx as [Hx|[Hx|Hx]]; [now left|right; now left|].
    right. right. now right.
Qed.

Definition seg_ends (s : segment) : R * R := (seg_a s, seg_b s).
Definition seg_sum (g : segment -> R) (h : list segment) : R := fold_right Rplus 0 (map g h).
Lemma seg_sum_perm g h h' : Permutation h h' -> seg_sum g h = seg_sum g h'.
Proof. unfold seg_sum. induction 1; cbn [map fold_right]; [reflexivity|now rewrite IHPermutation|ring|congruence]. Qed.
Lemma sum_by_seg_sum g h : sum_by g h = seg_sum g h.
Proof.
  assert (Q : forall l acc, fold_left (fun acc s => acc + g s) l acc = acc + seg_sum g l).
  { induction l as [|s l IH]; intros acc; cbn [fold_left]; [unfold seg_sum; cbn [map fold_right]; ring|]. rewrite IH. unfold seg_sum. cbn [map fold_right]. ring. }
  unfold sum_by. rewrite Q. ring.
Qed.
Lemma seg_sum_cons g s h : seg_sum g (s :: h) = g s + seg_sum g h.
Proof. reflexivity. Qed.

(** ** Traced computations *)
Lemma tbind_inv {A B} (m : tr A) (k : A -> tr B) l b : tbind m k = (l, Ok b) -> exists l1 l2 a, m = (l1, Ok a) /\ k a = (l2, Ok b) /\ l = l1 ++ l2.
Proof.
  destruct m as [l1 [a|e]]; unfold tbind; [|intros; discriminate]. destruct (k a) as [l2 r] eqn:E. intros H. injection H as <- ->. now exists l1, l2, a.
Qed.
Ltac tinv H := let l1 := fresh "l" in let l2 := fresh "l" in let a := fresh "a" in let H1 := fresh "T" in let H2 := fresh "T" in
  apply tbind_inv in H; destruct H as (l1 & l2 & a & H1 & H2 & ->).
Ltac tinvs := repeat (match goal with H : tbind _ _ = (_, Ok _) |- _ => tinv H; cbv beta zeta in * end).
(** An integrand that calls the user's function once whenever it returns. *)
Definition one_eval (f : R -> tr R) : Prop := forall t l v, f t = (l, Ok v) -> length l = 1%nat.
Lemma feval_one_eval f : one_eval (feval f).
Proof. intros t l v H. unfold feval in H. injection H as <- _. reflexivity. Qed.

Lemma tfold_inv {S A} (g : S -> A -> tr S) l s tr' s' : (forall s a l1 s1, In a l -> g s a = (l1, Ok s1) -> length l1 = 4%nat) ->
  tfold g l s = (tr', Ok s') -> length tr' = (4 * length l)%nat.
Proof.
  revert s tr'. induction l as [|a l IH]; intros s tr' H E; cbn [tfold] in E.
  - unfold tret in E. injection E as <- _. reflexivity.
  - tinv E. rewrite app_length. apply H in T; [|now left]. apply IH in T0; [|intros; eapply H; [right; eassumption|eassumption]]. cbn [length]. lia.
Qed.
Lemma evalrule_step_length f a s x w gw st i l st' : one_eval f -> evalrule_step f a s x w gw st i = (l, Ok st') -> length l = 4%nat.
Proof.
  intros H E. destruct st as [ik ig]. unfold evalrule_step in E. cbv zeta in E. tinvs.
  match goal with E : tret _ = _ |- _ => unfold tret in E; injection E as <- _ end.
  repeat match goal with E : f _ = (?k, Ok _) |- _ => apply H in E end. rewrite !app_length. cbn [length]. lia.
Qed.
(** A panel costs [2 n + 1] calls. *)
Lemma evalrule_fin_inv f a b x w gw n l sg : one_eval f -> (1 <= n)%nat -> length x = (n + 1)%nat -> length gw = ((n + 1) / 2)%nat ->
  evalrule_fin f a b x w gw = (l, Ok sg) -> length l = (2 * n + 1)%nat /\ seg_a sg = a /\ seg_b sg = b.
Proof.
  intros H Hn Lx Lg E. unfold evalrule_fin in E. tinv E. destruct a0 as [ik ig]. tinv T0. destruct a0 as [ik' ig'].
  unfold tret in T2. injection T2 as <- <-. cbn [seg_a seg_b]. split; [|easy]. rename T1 into T0. rewrite app_nil_r, app_length.
  apply tfold_inv in T; [|intros; eapply evalrule_step_length; eassumption]. rewrite seq_length in T. rewrite Lx in T, T0. rewrite Lg in T.
  pose proof (Nat.div_mod (n + 1) 2 ltac:(lia)) as D. pose proof (Nat.mod_upper_bound (n + 1) 2 ltac:(lia)).
  assert (C : ((n + 1) mod 2 = 0 \/ (n + 1) mod 2 = 1)%nat) by lia. destruct C as [C|C]; rewrite C in *; cbn [Nat.sub Nat.eqb] in T0.
  - tinvs. match goal with E : tret _ = _ |- _ => unfold tret in E; injection E as <- _ _ end. repeat match goal with E : f _ = (?k, Ok _) |- _ => apply H in E end.
    rewrite !app_length. cbn [length]. lia.
  - tinvs. match goal with E : tret _ = _ |- _ => unfold tret in E; injection E as <- _ _ end. repeat match goal with E : f _ = (?k, Ok _) |- _ => apply H in E end. rewrite !app_length. cbn [length]. lia.
Qed.

Section Loop.
  Context (hq : heapq_t) (f : R -> tr R) (n : nat) (x w gw : list R).
  Hypothesis HQ : heap_ok seg_lt hq.
  Hypothesis Hf : one_eval f.
  Hypothesis Hn : (1 <= n)%nat.
  Hypothesis Lx : length x = (n + 1)%nat.
  Hypothesis Lg : length gw = ((n + 1) / 2)%nat.

  (** [k] iterations of the loop body. *)
  Fixpoint steps (k : nat) (st : gkstate) : tr gkstate :=
    match k with
    | O => tret st
    | S k => do st' <- refine hq f n x w gw st; steps k st'
    end.

  (** What holds of a state reached from the break points [m0] with calls [calls]. *)
  Record good (m0 : list R) (calls : list R) (st : gkstate) : Prop := mkGood {
    good_mesh : exists m, bisected m0 m /\ Permutation (map seg_ends (gk_heap st)) (panels m);
    good_eval : forall s, In s (gk_heap st) -> exists pts, evalrule f (Fin (seg_a s)) (Fin (seg_b s)) x w gw = (pts, Ok s) /\ incl pts calls;
    good_int : gk_int st = seg_sum seg_int (gk_heap st);
    good_err : gk_err st = seg_sum seg_err (gk_heap st);
    good_evals : gk_evals st = length calls
  }.

  Lemma initial_heap_inv (inv : list segment -> Prop) : inv [] -> (forall h s, inv h -> inv (heappush hq h s) /\ Permutation (s :: h) (heappush hq h s)) ->
    forall ms h0 l h, inv h0 -> initial_heap hq f x w gw (map Fin ms) h0 = (l, Ok h) ->
    inv h /\ length l = ((2 * n + 1) * length (panels ms))%nat
    /\ exists new, Permutation h (new ++ h0) /\ map seg_ends new = panels ms
         /\ (forall s, In s new -> exists pts, evalrule f (Fin (seg_a s)) (Fin (seg_b s)) x w gw = (pts, Ok s) /\ incl pts l).
  Proof.
    intros I0 I1. induction ms as [|a ms IH]; intros h0 l h V E.
    - cbn in E. unfold tret in E. injection E as <- <-. split; [easy|]. split; [cbn [panels length]; lia|]. exists []. repeat split; try easy; constructor.
    - destruct ms as [|b ms].
      + cbn in E. unfold tret in E. injection E as <- <-. split; [easy|]. split; [cbn [panels length]; lia|]. exists []. repeat split; try easy; constructor.
      + cbn [map initial_heap] in E. tinv E. change (Fin b :: map Fin ms) with (map Fin (b :: ms)) in T0.
        destruct (I1 h0 a0 V) as [V' PP]. destruct (IH _ _ _ V' T0) as (J1 & J2 & new & J3 & J4 & J5).
        pose proof T as T'. cbn [evalrule] in T'. apply (evalrule_fin_inv f a b x w gw n) in T'; auto. destruct T' as (K1 & K2 & K3).
        split; [easy|]. split; [cbn [panels length] in *; rewrite app_length; cbn [panels length] in J2; lia|].
        exists (a0 :: new). repeat split.
        * rewrite J3. rewrite <- PP. cbn [app]. symmetry. apply Permutation_middle.
        * cbn [map panels]. rewrite J4. f_equal. unfold seg_ends. congruence.
        * intros s [<-|Hs].
          { exists l0. rewrite K2, K3. split; [exact T|]. apply incl_appl, incl_refl. }
          { destruct (J5 s Hs) as (pts & P1 & P2). exists pts. split; [easy|]. now apply incl_appr. }
  Qed.

  Lemma initial_good (inv : list segment -> Prop) : inv [] -> (forall h s, inv h -> inv (heappush hq h s) /\ Permutation (s :: h) (heappush hq h s)) ->
    forall ms l h, initial_heap hq f x w gw (map Fin ms) [] = (l, Ok h) -> inv h /\ good ms l (initial_state n h).
  Proof.
    intros I0 I1 ms l h E. destruct (initial_heap_inv inv I0 I1 ms [] l h I0 E) as (V & L & new & P & M & A). rewrite app_nil_r in P. split; [easy|].
    constructor; cbn [initial_state gk_heap gk_int gk_err gk_evals].
    - exists ms. split; [constructor|]. rewrite P, M. reflexivity.
    - intros s Hs. apply A. now rewrite <- P.
    - apply sum_by_seg_sum.
    - apply sum_by_seg_sum.
    - rewrite L. f_equal. rewrite (Permutation_length P), <- (map_length seg_ends), M. reflexivity.
  Qed.

  Lemma refine_inv (inv : list segment -> Prop) : (forall h s, inv h -> inv (heappush hq h s) /\ Permutation (s :: h) (heappush hq h s)) ->
    (forall h, inv h -> h <> [] -> exists w h', heappop hq h = Some (w, h') /\ inv h' /\ Permutation h (w :: h') /\ forall s, In s h' -> seg_lt s w = false) ->
    forall st l st', inv (gk_heap st) -> refine hq f n x w gw st = (l, Ok st') -> gk_heap st <> [] ->
    inv (gk_heap st') /\ length l = (4 * n + 2)%nat /\ exists worst rest s1 s2 l1 l2,
      Permutation (gk_heap st) (worst :: rest) /\ (forall s, In s rest -> seg_err s <= seg_err worst)
      /\ evalrule f (Fin (seg_a worst)) (Fin ((seg_a worst + seg_b worst) * (1 / 2))) x w gw = (l1, Ok s1)
      /\ evalrule f (Fin ((seg_a worst + seg_b worst) * (1 / 2))) (Fin (seg_b worst)) x w gw = (l2, Ok s2)
      /\ l = l1 ++ l2 /\ Permutation (gk_heap st') (s1 :: s2 :: rest)
      /\ seg_ends s1 = (seg_a worst, (seg_a worst + seg_b worst) * (1 / 2)) /\ seg_ends s2 = ((seg_a worst + seg_b worst) * (1 / 2), seg_b worst)
      /\ gk_int st' = gk_int st - seg_int worst + seg_int s1 + seg_int s2
      /\ gk_err st' = gk_err st - seg_err worst + seg_err s1 + seg_err s2
      /\ gk_evals st' = (gk_evals st + (4 * n + 2))%nat.
  Proof.
    intros I1 I2 st l st' V E NE. destruct (I2 _ V NE) as (worst & rest & P0 & P1 & P2 & P3). unfold refine in E. rewrite P0 in E.
    tinv E. rename a into s1. tinv T0. rename a into s2. unfold tret in T2. injection T2 as <- <-. cbn [gk_heap gk_int gk_err gk_evals].
    pose proof T as U1. pose proof T1 as U2. cbn [evalrule] in U1, U2.
    apply (evalrule_fin_inv f _ _ x w gw n) in U1; auto. apply (evalrule_fin_inv f _ _ x w gw n) in U2; auto.
    destruct U1 as (A1 & A2 & A3). destruct U2 as (B1 & B2 & B3). destruct (I1 rest s1 P1) as [V1 Q1]. destruct (I1 _ s2 V1) as [V2 Q2].
    split; [easy|]. split; [rewrite app_nil_r, app_length; lia|].
    exists worst, rest, s1, s2. do 2 eexists. rewrite app_nil_r. split; [easy|]. split; [|split; [exact T|split; [exact T1|]]]; [|split; [reflexivity|]; repeat split; auto].
    - intros s Hs. specialize (P3 s Hs). unfold seg_lt in P3. destruct (Rle_lt_dec (seg_err s) (seg_err worst)); [easy|].
      rewrite Rlt_bool_true in P3 by easy. discriminate.
    - rewrite <- Q2, <- Q1. apply perm_swap.
    - unfold seg_ends. congruence.
    - unfold seg_ends. congruence.
  Qed.

  Lemma refine_good m0 calls st l st' worst rest s1 s2 l1 l2 : good m0 calls st ->
      Permutation (gk_heap st) (worst :: rest)
      -> evalrule f (Fin (seg_a worst)) (Fin ((seg_a worst + seg_b worst) * (1 / 2))) x w gw = (l1, Ok s1)
      -> evalrule f (Fin ((seg_a worst + seg_b worst) * (1 / 2))) (Fin (seg_b worst)) x w gw = (l2, Ok s2)
      -> l = l1 ++ l2 -> Permutation (gk_heap st') (s1 :: s2 :: rest)
      -> seg_ends s1 = (seg_a worst, (seg_a worst + seg_b worst) * (1 / 2)) -> seg_ends s2 = ((seg_a worst + seg_b worst) * (1 / 2), seg_b worst)
      -> gk_int st' = gk_int st - seg_int worst + seg_int s1 + seg_int s2
      -> gk_err st' = gk_err st - seg_err worst + seg_err s1 + seg_err s2
      -> gk_evals st' = (gk_evals st + (4 * n + 2))%nat -> length l = (4 * n + 2)%nat ->
    good m0 (calls ++ l) st'.
  Proof.
    intros [(m & G1 & G2) G3 G4 G5 G6] H1 H2 H3 H4 H5 H6 H7 H8 H9 H10 H11. constructor.
    - assert (IN : In (seg_ends worst) (panels m)). { rewrite <- G2, H1. cbn [map]. now left. }
      apply in_panels in IN. destruct IN as (ml & mr & EM). subst m.
      exists (ml ++ seg_a worst :: (seg_a worst + seg_b worst) * (1 / 2) :: seg_b worst :: mr). split; [now constructor|].
      rewrite panels_bisect, H5. cbn [map]. rewrite H6, H7. do 2 constructor.
      rewrite panels_split, H1 in G2. cbn [map] in G2. exact (Permutation_cons_inv G2).
    - intros s Hs. assert (Hs' : In s (s1 :: s2 :: rest)) by now rewrite <- H5. destruct Hs' as [<-|[<-|Hs']].
      + exists l1. injection H6 as -> ->. split; [easy|]. apply incl_appr. rewrite H4. apply incl_appl, incl_refl.
      + exists l2. injection H7 as -> ->. split; [easy|]. apply incl_appr. rewrite H4. apply incl_appr, incl_refl.
      + destruct (G3 s) as (pts & P1 & P2); [rewrite H1; now right|]. exists pts. split; [easy|]. now apply incl_appl.
    - rewrite H8, G4, (seg_sum_perm _ _ _ H1), (seg_sum_perm _ _ _ H5), !seg_sum_cons. ring.
    - rewrite H9, G5, (seg_sum_perm _ _ _ H1), (seg_sum_perm _ _ _ H5), !seg_sum_cons. ring.
    - rewrite H10, G6, app_length, H11. reflexivity.
  Qed.
  Lemma heap_ne m0 calls st : (2 <= length m0)%nat -> good m0 calls st -> gk_heap st <> [].
  Proof.
    intros L [(m & G1 & G2) _ _ _ _] E. rewrite E in G2. apply Permutation_nil in G2. destruct (bisected_ends _ _ G1) as (_ & _ & B & _).
    destruct m as [|? [|? ?]]; cbn in B; try lia. discriminate.
  Qed.

  Lemma steps_good (inv : list segment -> Prop) : (forall h s, inv h -> inv (heappush hq h s) /\ Permutation (s :: h) (heappush hq h s)) ->
    (forall h, inv h -> h <> [] -> exists w h', heappop hq h = Some (w, h') /\ inv h' /\ Permutation h (w :: h') /\ forall s, In s h' -> seg_lt s w = false) ->
    forall m0, (2 <= length m0)%nat -> forall k calls st l st', inv (gk_heap st) -> good m0 calls st -> steps k st = (l, Ok st') ->
    inv (gk_heap st') /\ good m0 (calls ++ l) st' /\ gk_evals st' = (gk_evals st + k * (4 * n + 2))%nat.
  Proof.
    intros I1 I2 m0 L0. induction k as [|k IH]; intros calls st l st' V G E; cbn [steps] in E.
    - unfold tret in E. injection E as <- <-. rewrite app_nil_r. repeat split; auto; try apply G. lia.
    - tinv E. rename a into st1. destruct (refine_inv inv I1 I2 _ _ _ V T (heap_ne _ _ _ L0 G)) as (V1 & L1 & worst & rest & s1 & s2 & l1' & l2' & A1 & A2 & A3 & A4 & A5 & A6 & A7 & A8 & A9 & A10 & A11).
      assert (G1 : good m0 (calls ++ l0) st1) by (eapply refine_good; eassumption).
      destruct (IH _ _ _ _ V1 G1 T0) as (J1 & J2 & J3). rewrite app_assoc. repeat split; auto; try apply J2. lia.
  Qed.

  (** The loop performs iterations as long as the condition holds. *)
  Lemma adapt_inv abstol reltol maxevals fuel st l st' : adapt hq f n x w gw abstol reltol maxevals fuel st = (l, Ok st') ->
    go_on abstol reltol maxevals st' = false /\
    exists k, (k <= fuel)%nat /\ steps k st = (l, Ok st') /\ forall j lj sj, (j < k)%nat -> steps j st = (lj, Ok sj) -> go_on abstol reltol maxevals sj = true.
  Proof.
    revert st l. induction fuel as [|fuel IH]; intros st l E; cbn [adapt] in E; destruct (go_on abstol reltol maxevals st) eqn:GO; try discriminate.
    - unfold tret in E. injection E as <- <-. split; [easy|]. exists 0%nat. repeat split; auto; intros; lia.
    - tinv E. destruct (IH _ _ T0) as (J1 & k & J2 & J3 & J4). split; [easy|]. exists (S k). split; [lia|]. split.
      + cbn [steps]. rewrite T. now apply tbind_ok.
      + intros [|j] lj sj Hj Ej; cbn [steps] in Ej.
        * unfold tret in Ej. injection Ej as _ <-. exact GO.
        * rewrite T in Ej. apply tbind_inv in Ej. destruct Ej as (? & ? & ? & X1 & X2 & X3). injection X1 as <- <-. apply (J4 j _ _ ltac:(lia) X2).
    - unfold tret in E. injection E as <- <-. split; [easy|]. exists 0%nat. repeat split; auto; intros; lia.
  Qed.
  (** Fuel is not used up: an iteration adds at least one evaluation. *)
  Lemma adapt_fuel abstol reltol maxevals fuel st : (maxevals <= gk_evals st + fuel)%nat -> forall l e,
    adapt hq f n x w gw abstol reltol maxevals fuel st = (l, Err e) -> e = OutOfFuel ->
    exists k lk sk l', (k <= fuel)%nat /\ steps k st = (lk, Ok sk) /\ refine hq f n x w gw sk = (l', Err OutOfFuel).
  Proof.
    revert st. induction fuel as [|fuel IH]; intros st B l e E EE; cbn [adapt] in E; destruct (go_on abstol reltol maxevals st) eqn:GO; try discriminate.
    - unfold go_on in GO. apply andb_prop in GO. destruct GO as [_ GO]. apply Nat.ltb_lt in GO. lia.
    - destruct (refine hq f n x w gw st) as [l1 [st1|e1]] eqn:RE.
      + assert (gk_evals st1 = gk_evals st + (4 * n + 2))%nat as EV.
        { unfold refine in RE. destruct (heappop hq (gk_heap st)) as [[worst heap]|]; [|discriminate]. tinv RE. tinv T0. unfold tret in T2. injection T2 as _ <-. reflexivity. }
        unfold tbind in E. destruct (adapt hq f n x w gw abstol reltol maxevals fuel st1) as [l2 r2] eqn:EA. injection E as <- ->.
        destruct (IH st1 ltac:(lia) _ _ EA EE) as (k & lk & sk & l' & K1 & K2 & K3). exists (S k), (l1 ++ lk), sk, l'. split; [lia|]. split; [|easy].
        cbn [steps]. rewrite RE. now apply tbind_ok.
      + unfold tbind in E. injection E as _ <-. subst e1. exists 0%nat, [], st, l1. split; [lia|]. split; [reflexivity|easy].
  Qed.
End Loop.
