(** * quadgk under a change of variables and with reversed limits *)
From Coquelicot Require Import Coquelicot.
From Coq Require Import List Arith Bool ZArith QArith Reals Lra Lia Permutation Sorted.
From Verif Require Import Py RSum EnumFacts ModelNd ModelShapes ModelNodes ModelModes ModelQuad ModelGauss ModelKronrod.
From Verif Require Import ProofMonomial ProofQuad PropsTools ProofGauss2 ProofKronrod ProofQuadgk PropsKronrod PropsQuadgk ProofInf.
Import ListNotations.
Local Open Scope R_scope.

(** ** An integrand that computes [psi] through a call of another function at [p t] *)
Section Sim.
  Context (h : R -> tr R) (psi p : R -> R).
  Definition agrees (t : R) : Prop := h t = ([p t], Ok (psi t)).
  Definition simr {A} (m m' : tr A) : Prop := forall calls v, m = (calls, Ok v) -> (forall t, In t calls -> agrees t) -> m' = (map p calls, Ok v).
  Lemma simr_ret {A} (a : A) : simr (tret a) (tret a).
  Proof. intros calls v E _. unfold tret in *. injection E as <- <-. reflexivity. Qed.
  Lemma simr_raise {A} e (m : tr A) : simr (traise e) m.
  Proof. intros calls v E _. discriminate. Qed.
  Lemma simr_lift {A} (r : res A) : simr (tlift r) (tlift r).
  Proof. intros calls v E _. unfold tlift in *. injection E as <- ->. reflexivity. Qed.
  Lemma simr_bind {A B} (m m' : tr A) (k k' : A -> tr B) : simr m m' -> (forall a, simr (k a) (k' a)) -> simr (tbind m k) (tbind m' k').
  Proof.
    intros H1 H2 calls v E AG. tinv E. rewrite (H1 _ _ T); [|intros; apply AG, in_or_app; now left]. rewrite map_app. apply tbind_ok.
    apply (H2 a _ _ T0). intros; apply AG, in_or_app. now right.
  Qed.
  Let f := feval (fun t => Ok (psi t)).
  Lemma simr_f t : simr (f t) (h t).
  Proof. intros calls v E AG. unfold f, feval in E. injection E as <- <-. exact (AG t (or_introl eq_refl)). Qed.
  Lemma simr_step a s x w gw st i : simr (evalrule_step f a s x w gw st i) (evalrule_step h a s x w gw st i).
  Proof. destruct st as [ik ig]. unfold evalrule_step. cbv zeta. repeat (apply simr_bind; [apply simr_f|intros ?]). apply simr_ret. Qed.
  Lemma simr_fold {S A} (g g' : S -> A -> tr S) l : (forall s a, simr (g s a) (g' s a)) -> forall s, simr (tfold g l s) (tfold g' l s).
  Proof. intros H. induction l as [|a l IH]; intros s; cbn [tfold]; [apply simr_ret|]. apply simr_bind; [apply H|]. intros; apply IH. Qed.
  Lemma simr_evalrule a b x w gw : simr (evalrule f a b x w gw) (evalrule h a b x w gw).
  Proof.
    destruct a, b; cbn [evalrule]; try apply simr_raise. unfold evalrule_fin. cbv zeta. apply simr_bind.
    - apply simr_fold. intros; apply simr_step.
    - intros [ik ig]. apply simr_bind.
      + destruct (1 - length x mod 2 =? 0)%nat.
        * apply simr_bind; [apply simr_f|intros; apply simr_ret].
        * apply simr_bind; [apply simr_f|intros]. repeat (apply simr_bind; [apply simr_f|intros ?]). apply simr_ret.
      + intros [? ?]. apply simr_ret.
  Qed.
  Lemma simr_initial hq x w gw s hp : simr (initial_heap hq f x w gw s hp) (initial_heap hq h x w gw s hp).
  Proof.
    revert hp. induction s as [|a s IH]; intros hp; [apply simr_ret|]. destruct s as [|b s]; [apply simr_ret|].
    cbn [initial_heap]. apply simr_bind; [apply simr_evalrule|]. intros sg. apply (IH (heappush hq hp sg)).
  Qed.
  Lemma simr_refine hq n x w gw st : simr (refine hq f n x w gw st) (refine hq h n x w gw st).
  Proof.
    unfold refine. destruct (heappop hq (gk_heap st)) as [[worst heap]|]; [|apply simr_raise]. cbv zeta.
    repeat (apply simr_bind; [apply simr_evalrule|intros ?]). apply simr_ret.
  Qed.
  Lemma simr_adapt hq n x w gw abstol reltol maxevals fuel st : simr (adapt hq f n x w gw abstol reltol maxevals fuel st) (adapt hq h n x w gw abstol reltol maxevals fuel st).
  Proof.
    revert st. induction fuel as [|fuel IH]; intros st; cbn [adapt]; destruct (go_on abstol reltol maxevals st); try apply simr_ret; try apply simr_raise.
    apply simr_bind; [apply simr_refine|apply IH].
  Qed.
  Lemma simr_quadgk eigvalsh hq s n abstol reltol maxevals :
    simr (quadgk_finite eigvalsh hq f s n abstol reltol maxevals) (quadgk_finite eigvalsh hq h s n abstol reltol maxevals).
  Proof.
    unfold quadgk_finite. apply simr_bind; [apply simr_lift|]. intros [[x w] gw]. apply simr_bind; [apply simr_initial|]. intros heap.
    apply simr_bind; [apply simr_adapt|]. intros st. apply simr_ret.
  Qed.
End Sim.

(** ** The integrand is called inside the panels *)
Definition inner_nodes (x : list R) : Prop := forall y, In y x -> -1 < y < 1.
Lemma in_every2 : forall k l (y : R), (length l <= k)%nat -> In y (every2 l) -> In y l.
Proof.
  induction k as [|k IH]; intros l y L H; [destruct l; [easy|cbn in L; lia]|]. destruct l as [|a [|b l]]; [easy|easy|].
  cbn [every2] in H. destruct H as [<-|H]; [now left|]. right. right. apply (IH l y); [cbn in L; lia|easy].
Qed.
Lemma in_removelast {A} (l : list A) y : In y (removelast l) -> In y l.
Proof.
  intros H. destruct l as [|a l]; [easy|]. rewrite (app_removelast_last a (l := a :: l)) by discriminate. apply in_or_app. now left.
Qed.
Lemma assembled_inner n x w gw : inner_nodes x ->
  let k := assemble_kronrod n (x, w, gw) in inner_nodes (map (fun p => nth 0 p 0) (q_nodes (kr_gauss k)) ++ kr_nodes k).
Proof.
  intros HI. cbv zeta.
  assert (G0 : forall l : list R, map (fun p => nth 0 p 0) (map (fun t => [t]) l) = l).
  { intros l. rewrite map_map. cbn [nth]. apply map_id. }
  assert (E1 : forall y, In y (every2 x) -> -1 < y < 1) by (intros y Hy; apply HI, (in_every2 (length x)); auto).
  assert (E2 : forall y, In y (every2 (tl x)) -> -1 < y < 1).
  { intros y Hy. apply HI. apply (in_every2 (length (tl x))) in Hy; auto. destruct x; [easy|now right]. }
  assert (S1 : forall l : list R, inner_nodes l -> inner_nodes (l ++ map Ropp (rev l))).
  { intros l Hl y Hy. apply in_app_or in Hy. destruct Hy as [Hy|Hy]; [now apply Hl|]. apply in_map_iff in Hy. destruct Hy as (z & <- & Hz). apply in_rev in Hz. apply Hl in Hz. lra. }
  assert (S2 : forall l : list R, inner_nodes l -> inner_nodes (l ++ [0] ++ map Ropp (rev l))).
  { intros l Hl y Hy. apply in_app_or in Hy. destruct Hy as [Hy|[<-|Hy]]; [now apply Hl|lra|]. apply in_map_iff in Hy. destruct Hy as (z & <- & Hz). apply in_rev in Hz. apply Hl in Hz. lra. }
  assert (S3 : forall l, inner_nodes l -> inner_nodes (removelast l)) by (intros l Hl y Hy; apply Hl, in_removelast, Hy).
  unfold assemble_kronrod. destruct (n mod 2 =? 1)%nat; cbn [kr_nodes kr_gauss q_nodes]; rewrite G0; intros y Hy; apply in_app_or in Hy; destruct Hy as [Hy|Hy]; revert y Hy.
  - exact (S2 _ (S3 _ E2)).
  - exact (S1 _ E1).
  - exact (S1 _ E2).
  - exact (S2 _ (S3 _ E1)).
Qed.
Section Inside.
  Context (psi : R -> R) (n : nat) (x w gw : list R) (hq : heapq_t).
  Hypothesis Hn : (1 <= n)%nat.
  Hypothesis HR : rule_size n (x, w, gw).
  Hypothesis HI : inner_nodes x.
  Hypothesis HQ : heap_ok seg_lt hq.
  Let f := feval (fun t => Ok (psi t)).
  Lemma evalrule_calls a b calls sg : a < b -> evalrule f (Fin a) (Fin b) x w gw = (calls, Ok sg) ->
    seg_a sg = a /\ seg_b sg = b /\ forall t, In t calls -> a < t < b.
  Proof.
    intros L E. destruct (C41_panel n (x, w, gw) psi a b Hn HR) as (calls' & KI & GI & sg' & E' & A1 & A2 & _ & _ & _ & _ & P & _).
    fold f in E'. rewrite E' in E. injection E as <- <-. split; [easy|]. split; [easy|].
    intros t Ht. apply (Permutation_in _ P) in Ht. apply in_map_iff in Ht. destruct Ht as (y & <- & Hy).
    apply (assembled_inner n x w gw HI) in Hy. nra.
  Qed.
  Context (lo hi : R).
  Definition seg_in (s : segment) : Prop := lo <= seg_a s /\ seg_a s < seg_b s /\ seg_b s <= hi.
  Lemma initial_calls (inv : list segment -> Prop) : (forall h s, inv h -> inv (heappush hq h s) /\ Permutation (s :: h) (heappush hq h s)) ->
    forall ms h0 l h, inv h0 -> (forall s, In s h0 -> seg_in s) -> (forall a b, In (a, b) (panels ms) -> lo <= a /\ a < b /\ b <= hi) ->
    initial_heap hq f x w gw (map Fin ms) h0 = (l, Ok h) -> inv h /\ (forall s, In s h -> seg_in s) /\ forall t, In t l -> lo < t < hi.
  Proof.
    intros I1. induction ms as [|a ms IH]; intros h0 l h V S0 SP E.
    - cbn in E. unfold tret in E. injection E as <- <-. repeat split; try easy; now apply S0.
    - destruct ms as [|b ms].
      + cbn in E. unfold tret in E. injection E as <- <-. repeat split; try easy; now apply S0.
      + cbn [map initial_heap] in E. tinv E. change (Fin b :: map Fin ms) with (map Fin (b :: ms)) in T0.
        destruct (SP a b (or_introl eq_refl)) as (B1 & B2 & B3). destruct (evalrule_calls _ _ _ _ B2 T) as (C1 & C2 & C3).
        destruct (I1 h0 a0 V) as [V1 P1].
        destruct (IH (heappush hq h0 a0) l1 h V1) as (D1 & D2 & D3); [| |exact T0|].
        * intros s Hs. apply (Permutation_in _ (Permutation_sym P1)) in Hs. destruct Hs as [<-|Hs]; [unfold seg_in; lra|now apply S0].
        * intros. apply SP. now right.
        * split; [easy|]. split; [easy|]. intros t Ht. apply in_app_or in Ht. destruct Ht as [Ht|Ht]; [apply C3 in Ht; lra|now apply D3].
  Qed.
  Lemma adapt_calls (inv : list segment -> Prop) abstol reltol maxevals : (forall h s, inv h -> inv (heappush hq h s) /\ Permutation (s :: h) (heappush hq h s)) ->
    (forall h, inv h -> h <> [] -> exists w h', heappop hq h = Some (w, h') /\ inv h' /\ Permutation h (w :: h') /\ forall s, In s h' -> seg_lt s w = false) ->
    forall fuel st l st', inv (gk_heap st) -> gk_heap st <> [] -> (forall s, In s (gk_heap st) -> seg_in s) ->
    adapt hq f n x w gw abstol reltol maxevals fuel st = (l, Ok st') -> forall t, In t l -> lo < t < hi.
  Proof.
    intros I1 I2. induction fuel as [|fuel IH]; intros st l st' V NE S0 E; cbn [adapt] in E; destruct (go_on abstol reltol maxevals st);
      try (unfold tret in E; injection E as <- <-; intros ? []); try discriminate.
    tinv E. rename a into st1. pose proof HR as (Lx & Lw & Lg).
    destruct (refine_inv hq f n x w gw (feval_one_eval _) Hn Lx Lg inv I1 I2 _ _ _ V T NE) as (V1 & L1 & worst & rest & s1 & s2 & l1' & l2' & A1 & A2 & A3 & A4 & A5 & A6 & A7 & A8 & A9 & A10 & A11).
    assert (SW : seg_in worst) by (apply S0; rewrite A1; now left). destruct SW as (W1 & W2 & W3).
    apply evalrule_calls in A3; [|lra]. apply evalrule_calls in A4; [|lra]. destruct A3 as (B1 & B2 & B3). destruct A4 as (C1 & C2 & C3).
    intros t Ht. apply in_app_or in Ht. destruct Ht as [Ht|Ht].
    - rewrite A5 in Ht. apply in_app_or in Ht. destruct Ht as [Ht|Ht]; [apply B3 in Ht|apply C3 in Ht]; lra.
    - revert t Ht. refine (IH st1 _ _ V1 _ _ T0).
      + intros E0. rewrite E0 in A6. apply Permutation_nil in A6. discriminate.
      + intros s Hs. rewrite A6 in Hs. destruct Hs as [<-|[<-|Hs]]; [unfold seg_in; lra|unfold seg_in; lra|]. apply S0. rewrite A1. now right.
  Qed.
  Lemma quadgk_calls eigvalsh ms abstol reltol maxevals calls r : kronrod eigvalsh n = Ok (x, w, gw) -> (2 <= length ms)%nat ->
    (forall a b, In (a, b) (panels ms) -> lo <= a /\ a < b /\ b <= hi) ->
    quadgk_finite eigvalsh hq f (map Fin ms) n abstol reltol maxevals = (calls, Ok r) -> forall t, In t calls -> lo < t < hi.
  Proof.
    intros ED L2 SP E. pose proof HQ as (inv & I0 & I1 & I2). pose proof HR as (Lx & Lw & Lg).
    unfold quadgk_finite in E. rewrite ED in E. cbn [tlift] in E. tinv E. injection T as <- <-. cbn [app]. tinv T0. rename a into heap. tinv T1. unfold tret in T2. injection T2 as <- _.
    destruct (initial_calls inv I1 ms [] _ _ I0 ltac:(intros ? []) SP T) as (D1 & D2 & D3).
    destruct (initial_good hq f n x w gw (feval_one_eval _) Hn Lx Lg inv I0 I1 ms _ _ T) as [_ G0].
    intros t Ht. rewrite app_nil_r in Ht. apply in_app_or in Ht. destruct Ht as [Ht|Ht]; [now apply D3|].
    refine (adapt_calls inv abstol reltol maxevals I1 I2 _ (initial_state n heap) _ _ D1 _ D2 T0 t Ht).
    exact (heap_ne f n x w gw Hn Lx Lg _ _ _ L2 G0).
  Qed.
End Inside.

(** Strictly increasing break points. *)
Lemma sorted_panels lo ms hi : StronglySorted Rlt (lo :: ms ++ [hi]) ->
  forall a b, In (a, b) (panels (lo :: ms ++ [hi])) -> lo <= a /\ a < b /\ b <= hi.
Proof.
  intros S a b H. apply in_panels in H. destruct H as (l & r & E). rewrite E in S.
  assert (Q : forall (l : list R) y r, StronglySorted Rlt (l ++ y :: r) -> (forall z, In z l -> z < y) /\ (forall z, In z r -> y < z)).
  { clear. induction l as [|z l IH]; intros y r S; cbn [app] in S; inversion S as [|? ? S1 S2]; subst.
    - split; [intros ? []|]. intros z Hz. rewrite Forall_forall in S2. now apply S2.
    - destruct (IH y r S1) as [I1 I2]. split; [|easy]. intros u [<-|Hu]; [|now apply I1]. rewrite Forall_forall in S2. apply S2. apply in_or_app. right. now left. }
  destruct (Q l a (b :: r) S) as [Q1 Q2]. split; [|split].
  - destruct l as [|z l]; cbn [app] in E; injection E as <- _; [lra|]. apply Rlt_le, Q1. now left.
  - apply Q2. now left.
  - replace (l ++ a :: b :: r) with ((l ++ [a]) ++ b :: r) in * by now rewrite <- app_assoc. destruct (Q _ _ _ S) as [Q3 Q4].
    destruct r as [|z r]; [|].
    + change (lo :: ms ++ [hi]) with ((lo :: ms) ++ [hi]) in E. apply app_inj_tail in E. destruct E as [_ ->]. lra.
    + apply Rlt_le, Q4. assert (HL : last (lo :: ms ++ [hi]) 0 = last ((l ++ [a]) ++ b :: z :: r) 0) by now rewrite E.
      change (lo :: ms ++ [hi]) with ((lo :: ms) ++ [hi]) in HL. rewrite last_last in HL. rewrite HL.
      replace ((l ++ [a]) ++ b :: z :: r) with (((l ++ [a]) ++ [b]) ++ z :: r) by now rewrite <- !app_assoc.
      assert (QL : forall k : list R, last (k ++ z :: r) 0 = last (z :: r) 0).
      { induction k as [|y k IHk]; [reflexivity|]. rewrite <- IHk. cbn [app last]. destruct (k ++ z :: r) eqn:E2; [now destruct k|reflexivity]. }
      rewrite QL. rewrite last_nth by discriminate. apply nth_In. cbn. lia.
Qed.

(** ** Reversed limits *)
Definition mirror (s : segment) : segment := mkSeg (seg_b s) (seg_a s) (- seg_int s) (seg_err s).
Lemma dotR_sym (F : R -> R) nodes ws : rev nodes = map Ropp nodes -> rev ws = ws -> length nodes = length ws ->
  dotR (map (fun y => F (- y)) nodes) ws = dotR (map F nodes) ws.
Proof.
  intros H1 H2 L. rewrite <- map_map with (f := Ropp), <- H1. rewrite <- H2 at 1. rewrite map_rev. apply dotR_rev. now rewrite map_length.
Qed.
Lemma evalrule_reverse phi a b x w gw n calls sg : (1 <= n)%nat -> rule_size n (x, w, gw) ->
  evalrule (feval (fun t => Ok (phi t))) (Fin a) (Fin b) x w gw = (calls, Ok sg) ->
  exists calls', evalrule (feval (fun t => Ok (phi t))) (Fin b) (Fin a) x w gw = (calls', Ok (mirror sg)) /\ Permutation calls' calls.
Proof.
  intros Hn HR E.
  destruct (C41_panel n (x, w, gw) phi a b Hn HR) as (c1 & K1 & G1 & s1 & E1 & A1 & A2 & A3 & A4 & A5 & A6 & A7 & A8 & A9 & A10).
  destruct (C41_panel n (x, w, gw) phi b a Hn HR) as (c2 & K2 & G2 & s2 & E2 & B1 & B2 & B3 & B4 & B5 & B6 & B7 & B8 & B9 & B10).
  destruct (C41_symmetric n (x, w, gw) Hn HR) as (S1 & S2 & S3 & S4 & S5).
  set (k := assemble_kronrod n (x, w, gw)) in *. rewrite E1 in E. injection E as <- <-.
  set (gn := map (fun p => nth 0 p 0) (q_nodes (kr_gauss k))) in *.
  set (P := fun y => (a + b) / 2 + (b - a) / 2 * y) in *.
  assert (EP : forall y, (b + a) / 2 + (a - b) / 2 * y = P (- y)) by (intros; unfold P; field).
  assert (EK : K2 = K1).
  { unfold kr_call in A3, B3. rewrite (mapM_total (fun p => phi (P (nth 0 p 0)))) in A3. rewrite (mapM_total (fun p => phi ((b + a) / 2 + (a - b) / 2 * nth 0 p 0))) in B3.
    rewrite (mapM_total (fun y => phi (P y))) in A3. rewrite (mapM_total (fun y => phi ((b + a) / 2 + (a - b) / 2 * y))) in B3. cbn [bind] in A3, B3.
    rewrite !map_length in A3, B3. destruct (Nat.eqb_spec (length (q_nodes (kr_gauss k))) (length (kr_gauss_weights k))) as [M1|]; [|discriminate].
    cbn [negb] in A3, B3. destruct (Nat.eqb_spec (length (kr_nodes k)) (length (kr_weights k))) as [M2|]; [|discriminate]. cbn [negb] in A3, B3.
    assert (K1 = dotR (map (fun p => phi (P (nth 0 p 0))) (q_nodes (kr_gauss k))) (kr_gauss_weights k) + dotR (map (fun y => phi (P y)) (kr_nodes k)) (kr_weights k)) as -> by congruence.
    assert (K2 = dotR (map (fun p => phi ((b + a) / 2 + (a - b) / 2 * nth 0 p 0)) (q_nodes (kr_gauss k))) (kr_gauss_weights k) + dotR (map (fun y => phi ((b + a) / 2 + (a - b) / 2 * y)) (kr_nodes k)) (kr_weights k)) as -> by congruence.
    f_equal.
    - rewrite <- (map_map (fun p => nth 0 p 0) (fun y => phi (P y))), <- (map_map (fun p => nth 0 p 0) (fun y => phi ((b + a) / 2 + (a - b) / 2 * y))). fold gn.
      rewrite <- (dotR_sym (fun y => phi (P y)) gn (kr_gauss_weights k) S2 S4) by (unfold gn; rewrite map_length; easy).
      f_equal. apply map_ext. intros y. now rewrite EP.
    - rewrite <- (dotR_sym (fun y => phi (P y)) (kr_nodes k) (kr_weights k) S1 S3) by easy. f_equal. apply map_ext. intros y. now rewrite EP. }
  assert (EG : G2 = G1).
  { unfold q_call in A5, B5. rewrite (mapM_total (fun p => phi (P (nth 0 p 0)))) in A5. rewrite (mapM_total (fun p => phi ((b + a) / 2 + (a - b) / 2 * nth 0 p 0))) in B5.
    cbn [bind] in A5, B5. rewrite !map_length in A5, B5. destruct (Nat.eqb_spec (length (q_weights (kr_gauss k))) (length (q_nodes (kr_gauss k)))) as [M1|]; [|discriminate].
    assert (G1 = dotR (q_weights (kr_gauss k)) (map (fun p => phi (P (nth 0 p 0))) (q_nodes (kr_gauss k)))) as -> by congruence.
    assert (G2 = dotR (q_weights (kr_gauss k)) (map (fun p => phi ((b + a) / 2 + (a - b) / 2 * nth 0 p 0)) (q_nodes (kr_gauss k)))) as -> by congruence.
    rewrite !(dotR_comm (q_weights (kr_gauss k))).
    rewrite <- (map_map (fun p => nth 0 p 0) (fun y => phi (P y))), <- (map_map (fun p => nth 0 p 0) (fun y => phi ((b + a) / 2 + (a - b) / 2 * y))). fold gn.
    rewrite <- (dotR_sym (fun y => phi (P y)) gn (q_weights (kr_gauss k)) S2 S5) by (unfold gn; rewrite map_length; easy).
    f_equal. apply map_ext. intros y. now rewrite EP. }
  exists c2. split.
  - rewrite E2. apply (f_equal2 pair); [reflexivity|]. apply f_equal. destruct s2 as [sa sb si se]. cbn [seg_a seg_b seg_int seg_err] in *. unfold mirror.
    rewrite A1, A2, A4, A6, B1, B2, B4, B6, EK, EG. f_equal; [field|]. replace ((a - b) / 2 * (K1 - G1)) with (- ((b - a) / 2 * (K1 - G1))) by field. apply Rabs_Ropp.
  - rewrite A7, B7. cbv zeta. rewrite (map_ext _ (fun y => P (- y)) EP).
    rewrite !map_app. apply Permutation_app.
    + rewrite <- map_map with (f := Ropp), <- S2, map_rev. symmetry. apply Permutation_rev.
    + rewrite <- map_map with (f := Ropp), <- S1, map_rev. symmetry. apply Permutation_rev.
Qed.

Section Reverse.
  Context (phi : R -> R) (n : nat) (x w gw : list R) (hq : heapq_t) (inv : list segment -> Prop).
  Hypothesis Hn : (1 <= n)%nat.
  Hypothesis HR : rule_size n (x, w, gw).
  Hypothesis I1 : forall h s, inv h -> inv (heappush hq h s) /\ Permutation (s :: h) (heappush hq h s).
  Hypothesis I2 : forall h, inv h -> h <> [] -> exists w h', heappop hq h = Some (w, h') /\ inv h' /\ Permutation h (w :: h') /\ forall s, In s h' -> seg_lt s w = false.
  Let f := feval (fun t => Ok (phi t)).
  (** The heap of the reversed run. *)
  Definition mirrored (st st' : gkstate) : Prop :=
    Permutation (gk_heap st') (map mirror (gk_heap st)) /\ gk_int st' = - gk_int st /\ gk_err st' = gk_err st /\ gk_evals st' = gk_evals st.
  Definition unique_worst (h : list segment) : Prop := exists s r, Permutation h (s :: r) /\ forall o, In o r -> seg_err o < seg_err s.
  Lemma go_on_mirrored abstol reltol maxevals st st' : mirrored st st' -> go_on abstol reltol maxevals st' = go_on abstol reltol maxevals st.
  Proof. intros (_ & H1 & H2 & H3). unfold go_on. now rewrite H1, H2, H3, Rabs_Ropp. Qed.
  Lemma unique_pop h s r : unique_worst h -> Permutation h (s :: r) -> (forall o, In o r -> seg_err o <= seg_err s) ->
    exists s0 r0, s = s0 /\ Permutation r r0 /\ Permutation h (s0 :: r0) /\ forall o, In o r0 -> seg_err o < seg_err s0.
  Proof.
    intros (s0 & r0 & P0 & L0) P1 L1. assert (E : s = s0).
    { assert (In s (s0 :: r0)) as [<-|H]; [|easy|]. { apply (Permutation_in _ P0). apply (Permutation_in _ (Permutation_sym P1)). now left. }
      assert (In s0 (s :: r)) as [<-|H'].
      { apply (Permutation_in _ P1), (Permutation_in _ (Permutation_sym P0)). now left. }
      - easy.
      - apply L0 in H. apply L1 in H'. lra. }
    subst s0. exists s, r0. split; [easy|]. split; [|easy]. apply (Permutation_cons_inv (a := s)). now rewrite <- P1.
  Qed.
  Lemma refine_mirrored st st' l st1 : inv (gk_heap st) -> inv (gk_heap st') -> gk_heap st <> [] -> unique_worst (gk_heap st) -> mirrored st st' ->
    refine hq f n x w gw st = (l, Ok st1) ->
    exists l' st1', refine hq f n x w gw st' = (l', Ok st1') /\ mirrored st1 st1' /\ Permutation l' l /\ inv (gk_heap st1) /\ inv (gk_heap st1') /\ gk_heap st1 <> [].
  Proof.
    intros V V' NE U M E. pose proof HR as (Lx & Lw & Lg). pose proof M as (M1 & M2 & M3 & M4).
    assert (NE' : gk_heap st' <> []).
    { intros E0. rewrite E0 in M1. apply Permutation_nil in M1. destruct (gk_heap st); [easy|discriminate]. }
    destruct (refine_inv hq f n x w gw (feval_one_eval _) Hn Lx Lg inv I1 I2 _ _ _ V E NE) as (V1 & L1 & worst & rest & s1 & s2 & l1' & l2' & A1 & A2 & A3 & A4 & A5 & A6 & A7 & A8 & A9 & A10 & A11).
    destruct (I2 _ V' NE') as (w' & r' & B1 & _).
    destruct (refine_total hq phi n x w gw st' Hn HR) as (l' & st1' & E'); [now exists w', r'|]. fold f in E'. clear w' r' B1.
    destruct (refine_inv hq f n x w gw (feval_one_eval _) Hn Lx Lg inv I1 I2 _ _ _ V' E' NE') as (V1' & L1'' & worst' & rest' & s1' & s2' & l1'' & l2'' & B1 & B2 & B3 & B4 & B5 & B6 & B7 & B8 & B9 & B10 & B11).
    assert (U' : unique_worst (gk_heap st')).
    { destruct U as (s & r & P & L). exists (mirror s), (map mirror r). split; [rewrite M1, P; reflexivity|]. intros o Ho. apply in_map_iff in Ho. destruct Ho as (o' & <- & Ho). cbn [seg_err mirror]. now apply L. }
    destruct (unique_pop _ _ _ U A1 A2) as (s0 & r0 & <- & P1 & P2 & P3).
    assert (EW : worst' = mirror worst /\ Permutation rest' (map mirror rest)).
    { assert (PP : Permutation (worst' :: rest') (mirror worst :: map mirror rest)).
      { rewrite <- B1, M1. change (mirror worst :: map mirror rest) with (map mirror (worst :: rest)). now apply Permutation_map. }
      assert (EW : worst' = mirror worst).
      { assert (In worst' (mirror worst :: map mirror rest)) as [H|H] by (apply (Permutation_in _ PP); now left); [easy|].
        apply in_map_iff in H. destruct H as (o & E1 & Ho). assert (Ho' := proj1 (Permutation_in' eq_refl P1) Ho). apply P3 in Ho'.
        assert (In (mirror worst) (worst' :: rest')) as [H|H] by (apply (Permutation_in _ (Permutation_sym PP)); now left).
        - easy.
        - apply B2 in H. rewrite <- E1 in H. cbn [seg_err mirror] in H. lra. }
      split; [easy|]. subst worst'. exact (Permutation_cons_inv PP). }
    destruct EW as [-> PR]. cbn [mirror seg_a seg_b] in B3, B4.
    replace ((seg_b worst + seg_a worst) * (1 / 2)) with ((seg_a worst + seg_b worst) * (1 / 2)) in B3, B4 by ring.
    destruct (evalrule_reverse phi _ _ x w gw n _ _ Hn HR A3) as (c1 & C1 & C2). destruct (evalrule_reverse phi _ _ x w gw n _ _ Hn HR A4) as (c2 & C3 & C4).
    unfold f in B3, B4. rewrite C3 in B3. rewrite C1 in B4. injection B3 as <- <-. injection B4 as <- <-.
    exists l', st1'. split; [easy|]. split; [|split; [|split; [easy|split; [easy|]]]].
    - repeat split.
      + rewrite B6, A6. cbn [map]. rewrite PR. apply perm_swap.
      + rewrite B9, A9, M2. cbn [mirror seg_int]. ring.
      + rewrite B10, A10, M3. cbn [mirror seg_err]. ring.
      + now rewrite B11, A11, M4.
    - rewrite B5, A5, C2, C4. apply Permutation_app_comm.
    - intros E0. rewrite E0 in A6. apply Permutation_nil in A6. discriminate.
  Qed.
  (** No two panels compete for the largest error in the run. *)
  Fixpoint no_ties (abstol reltol : R) (maxevals fuel : nat) (st : gkstate) : Prop :=
    go_on abstol reltol maxevals st = true ->
    unique_worst (gk_heap st) /\
    match fuel with O => True | S k => forall l st1, refine hq f n x w gw st = (l, Ok st1) -> no_ties abstol reltol maxevals k st1 end.
  Lemma adapt_mirrored abstol reltol maxevals : forall fuel st st' l st1, inv (gk_heap st) -> inv (gk_heap st') -> gk_heap st <> [] ->
    no_ties abstol reltol maxevals fuel st -> mirrored st st' -> adapt hq f n x w gw abstol reltol maxevals fuel st = (l, Ok st1) ->
    exists l' st1', adapt hq f n x w gw abstol reltol maxevals fuel st' = (l', Ok st1') /\ mirrored st1 st1' /\ Permutation l' l.
  Proof.
    induction fuel as [|fuel IH]; intros st st' l st1 V V' NE NT M E; cbn [adapt] in *; rewrite (go_on_mirrored _ _ _ _ _ M); destruct (go_on abstol reltol maxevals st) eqn:GO.
    - discriminate.
    - unfold tret in *. injection E as <- <-. exists [], st'. easy.
    - tinv E. cbn [no_ties] in NT. destruct (NT GO) as [U NT'].
      destruct (refine_mirrored _ _ _ _ V V' NE U M T) as (l' & st1' & R1 & R2 & R3 & R4 & R5 & R6).
      destruct (IH _ _ _ _ R4 R5 R6 (NT' _ _ T) R2 T0) as (l'' & st2' & Q1 & Q2 & Q3). exists (l' ++ l''), st2'. rewrite R1. split; [now apply tbind_ok|]. split; [easy|].
      now apply Permutation_app.
    - unfold tret in *. injection E as <- <-. exists [], st'. easy.
  Qed.
  Lemma panels_rev ms : panels (rev ms) = rev (map (fun p => (snd p, fst p)) (panels ms)).
  Proof.
    induction ms as [|a ms IH]; [reflexivity|]. destruct ms as [|b ms]; [reflexivity|].
    change (panels (a :: b :: ms)) with ((a, b) :: panels (b :: ms)). cbn [map rev fst snd]. rewrite <- IH. cbn [rev].
    rewrite <- app_assoc. cbn [app]. rewrite panels_app. reflexivity.
  Qed.
  (** Values of the panels of a mesh, in order. *)
  Lemma initial_heap_segs : forall ms h0 l h, inv h0 -> initial_heap hq f x w gw (map Fin ms) h0 = (l, Ok h) ->
    inv h /\ exists new cs, Permutation h (new ++ h0) /\ l = concat cs /\ Forall2 (fun p sc => evalrule f (Fin (fst p)) (Fin (snd p)) x w gw = (snd sc, Ok (fst sc))) (panels ms) (combine new cs) /\ length new = length cs.
  Proof.
    induction ms as [|a ms IH]; intros h0 l h V E.
    - cbn in E. unfold tret in E. injection E as <- <-. split; [easy|]. exists [], []. split; [reflexivity|]. split; [reflexivity|]. split; [constructor|reflexivity].
    - destruct ms as [|b ms].
      + cbn in E. unfold tret in E. injection E as <- <-. split; [easy|]. exists [], []. split; [reflexivity|]. split; [reflexivity|]. split; [constructor|reflexivity].
      + cbn [map initial_heap] in E. tinv E. change (Fin b :: map Fin ms) with (map Fin (b :: ms)) in T0. destruct (I1 h0 a0 V) as [V1 P1].
        destruct (IH _ _ _ V1 T0) as (D1 & new & cs & D2 & D3 & D4 & D5). split; [easy|]. exists (a0 :: new), (l0 :: cs). repeat split.
        * rewrite D2, <- P1. cbn [app]. symmetry. apply Permutation_middle.
        * cbn [concat]. now rewrite D3.
        * change (panels (a :: b :: ms)) with ((a, b) :: panels (b :: ms)). cbn [combine]. constructor; [exact T|exact D4].
        * cbn [length]. lia.
  Qed.
  Lemma initial_mirrored ms l h : inv [] -> initial_heap hq f x w gw (map Fin ms) [] = (l, Ok h) ->
    exists l' h', initial_heap hq f x w gw (map Fin (rev ms)) [] = (l', Ok h') /\ mirrored (initial_state n h) (initial_state n h')
      /\ Permutation l' l /\ inv h /\ inv h'.
  Proof.
    intros I0 E. destruct (initial_heap_total hq phi n x w gw (rev ms) [] Hn HR) as (l' & h' & E'). fold f in E'. exists l', h'. split; [easy|].
    destruct (initial_heap_segs _ _ _ _ I0 E) as (V & new & cs & P1 & P2 & P3 & P4). destruct (initial_heap_segs _ _ _ _ I0 E') as (V' & new' & cs' & P1' & P2' & P3' & P4').
    rewrite app_nil_r in P1, P1'. rewrite panels_rev in P3'.
    assert (Q : Permutation (map fst (combine new' cs')) (map mirror (map fst (combine new cs))) /\ Permutation (concat (map snd (combine new' cs'))) (concat (map snd (combine new cs)))).
    { assert (Q : forall ps S S', Forall2 (fun p (sc : segment * list R) => evalrule f (Fin (fst p)) (Fin (snd p)) x w gw = (snd sc, Ok (fst sc))) ps S ->
                   Forall2 (fun p (sc : segment * list R) => evalrule f (Fin (fst p)) (Fin (snd p)) x w gw = (snd sc, Ok (fst sc))) (rev (map (fun p => (snd p, fst p)) ps)) S' ->
                   Permutation (map fst S') (map mirror (map fst S)) /\ Permutation (concat (map snd S')) (concat (map snd S))).
      { clear -Hn HR. intros ps S S' H H'. revert S' H'. induction H as [|p sc ps S HE H IH]; intros S' H'.
        - cbn in H'. inversion H'. split; constructor.
        - cbn [map rev] in H'. apply Forall2_app_inv_l in H'. destruct H' as (S1 & S2 & H1 & H2 & ->). inversion H2 as [|? sc' ? ? HE' H3]; subst. inversion H3; subst.
          destruct (IH S1 H1) as [J1 J2]. cbn [fst snd] in HE'. destruct sc as [sg c], sc' as [sg' c']. cbn [fst snd] in *.
          destruct (evalrule_reverse phi _ _ x w gw n _ _ Hn HR HE) as (c2 & C1 & C2). unfold f in HE'. rewrite C1 in HE'. injection HE' as -> <-.
          rewrite !map_app. cbn [map fst snd concat]. split.
          + rewrite <- Permutation_middle, app_nil_r. now constructor.
          + rewrite concat_app. cbn [concat]. rewrite app_nil_r, J2, C2. apply Permutation_app_comm. }
      exact (Q _ _ _ P3 P3'). }
    assert (C1 : forall (u : list segment) (v : list (list R)), length u = length v -> map fst (combine u v) = u /\ map snd (combine u v) = v).
    { clear. induction u as [|a u IH]; intros [|b v] L; try discriminate; [now split|]. cbn [combine map fst snd]. destruct (IH v) as [-> ->]; [cbn in L; lia|]. now split. }
    destruct (C1 new cs P4) as [F1 F2]. destruct (C1 new' cs' P4') as [F3 F4]. rewrite F1, F2, F3, F4 in Q. destruct Q as [Q1 Q2].
    assert (PH : Permutation h' (map mirror h)). { rewrite P1', Q1. apply Permutation_map. now symmetry. }
    split; [|split; [now rewrite P2, P2'|easy]].
    unfold mirrored, initial_state. cbn [gk_heap gk_int gk_err gk_evals]. split; [easy|].
    rewrite !sum_by_seg_sum, (seg_sum_perm _ _ _ PH), (seg_sum_perm seg_err _ _ PH), (Permutation_length PH), map_length. repeat split.
    - unfold seg_sum. clear. induction h as [|s h IH]; cbn [map fold_right]; [ring|]. rewrite IH. cbn [mirror seg_int]. ring.
    - unfold seg_sum. rewrite map_map. reflexivity.
  Qed.
End Reverse.
