(** * The Grundmann-Moeller rule: its dictionary of points, its nodes and its moments *)
From Coquelicot Require Import Coquelicot.
From Coq Require Import List Arith Bool ZArith Reals Lra Lia Permutation.
From Verif Require Import Py PyToolsModel ModelShapes ModelSpaces ModelNodes ModelModes ModelQuad ModelGM.
From Verif Require Import RSum EnumFacts IntFacts SpecIndex SpecGeometry SpecPoly SpecIntegral ProofNodeTuples
  ProofEuclid ProofGMComb ProofDirichlet ProofCompositions ProofTPGrad.
Import ListNotations.
Local Open Scope R_scope.

(** ** Sums over lists *)
Definition lsum {B} (f : B -> R) (l : list B) : R := list_sum (map f l).
Lemma lsum_cons {B} (f : B -> R) x l : lsum f (x :: l) = f x + lsum f l.
Proof. reflexivity. Qed.
Lemma lsum_app {B} (f : B -> R) l l' : lsum f (l ++ l') = lsum f l + lsum f l'.
Proof. induction l as [|x l IH]; cbn [app]; [unfold lsum at 2; cbn; ring|]. rewrite !lsum_cons, IH. ring. Qed.
Lemma lsum_ext {B} (f g : B -> R) l : (forall x, In x l -> f x = g x) -> lsum f l = lsum g l.
Proof. intros H. unfold lsum. f_equal. now apply map_ext_in. Qed.
Lemma lsum_scal {B} c (f : B -> R) l : lsum (fun x => c * f x) l = c * lsum f l.
Proof. induction l as [|x l IH]; [unfold lsum; cbn; ring|]. rewrite !lsum_cons, IH. ring. Qed.
Lemma lsum_perm {B} (f : B -> R) l l' : Permutation l l' -> lsum f l = lsum f l'.
Proof.
  induction 1 as [|x l l' _ IH|x y l|l l' l'' _ IH1 _ IH2]; [reflexivity| | |congruence].
  - now rewrite !lsum_cons, IH.
  - rewrite !lsum_cons. ring.
Qed.
Lemma lsum_flat_seq {B} (f : B -> R) (g : nat -> list B) n : forall st,
  lsum f (flat_map g (seq st n)) = rsum (fun k => lsum f (g (st + k)%nat)) n.
Proof.
  induction n as [|n IH]; intros st; cbn [seq flat_map]; [reflexivity|].
  rewrite lsum_app, IH, rsum_shift, Nat.add_0_r. f_equal. apply rsum_ext. intros k _. f_equal. f_equal. lia.
Qed.
Lemma lsum_map {B C} (f : C -> R) (g : B -> C) l : lsum f (map g l) = lsum (fun x => f (g x)) l.
Proof. unfold lsum. now rewrite map_map. Qed.
Lemma lsum_swap {B C} (f : B -> C -> R) l l' :
  lsum (fun x => lsum (f x) l') l = lsum (fun y => lsum (fun x => f x y) l) l'.
Proof.
  induction l as [|x l IH].
  - unfold lsum at 1. cbn [map]. symmetry. induction l' as [|y l' IH]; [reflexivity|]. rewrite lsum_cons, IH. unfold lsum; cbn. ring.
  - rewrite lsum_cons, IH. clear IH. induction l' as [|y l' IH]; [unfold lsum; cbn; ring|]. rewrite !lsum_cons, <- IH. ring.
Qed.

(** ** Points *)
Definition fval (ab : Z * Z) : R := IZR (fst ab) / IZR (snd ab).
Definition lam (k : list (Z * Z)) : list R := map fval k.
Definition goodfrac (ab : Z * Z) : Prop := (0 < fst ab)%Z /\ (0 < snd ab)%Z /\ Z.gcd (fst ab) (snd ab) = 1%Z.
Definition goodkey (n : nat) (k : list (Z * Z)) : Prop :=
  length k = S n /\ Forall goodfrac k /\ list_sum (lam k) = 1.
Lemma goodfrac_inj p q : goodfrac p -> goodfrac q -> fval p = fval q -> p = q.
Proof.
  destruct p as [a b], q as [c d]. unfold goodfrac, fval. cbn [fst snd]. intros (Ha & Hb & G) (Hc & Hd & G') E.
  assert (E' : (a * d = c * b)%Z).
  { apply eq_IZR. rewrite !mult_IZR. assert (IZR b <> 0) by (apply not_0_IZR; lia). assert (IZR d <> 0) by (apply not_0_IZR; lia).
    transitivity (IZR a / IZR b * (IZR b * IZR d)); [field; easy|]. rewrite E. field. easy. }
  destruct (coprime_proportional a b c d G G' E') as [[-> ->]|[-> ->]]; [reflexivity|lia].
Qed.
Lemma goodkey_inj n k k' : goodkey n k -> goodkey n k' -> lam k = lam k' -> k = k'.
Proof.
  intros (_ & F & _) (_ & F' & _). revert k' F'. induction F as [|p k Hp F IH]; intros [|q k'] F' E; try discriminate; [reflexivity|].
  unfold lam in E. cbn [map] in E. injection E as E1 E2. inversion F' as [|? ? Hq F'']; subst. f_equal; [now apply goodfrac_inj|now apply IH].
Qed.
Definition lamb (den : nat) (beta : list nat) : list R := map (fun b => (2 * INR b + 1) / INR den) beta.
Lemma list_sum_lamb den beta : INR den <> 0 ->
  list_sum (lamb den beta) = (2 * INR (total beta) + INR (length beta)) / INR den.
Proof.
  intros Hd. unfold list_sum, lamb. induction beta as [|b beta IH]; [unfold total; cbn; field; easy|].
  cbn [map fold_right length]. rewrite IH. unfold total at 2. cbn [fold_right]. fold (total beta). rewrite plus_INR, S_INR. field. easy.
Qed.
Lemma simplify_pos a b : (0 < a)%Z -> (0 < b)%Z ->
  exists p, simplify_fraction (a, b) = Ok p /\ goodfrac p /\ fval p = IZR a / IZR b.
Proof.
  intros Ha Hb. destruct (simplify_ok a b) as (g & a' & b' & E & Ea & Eb & G & L & _).
  { intros H. injection H as -> ->. lia. }
  assert (Hg : (0 < g)%Z).
  { unfold lead in L. destruct (Z.eqb_spec a 0); [lia|]. destruct (Z.eqb_spec b 0); [lia|].
    destruct (Z.abs a <? Z.abs b)%Z; nia. }
  exists (a', b'). split; [easy|]. unfold goodfrac, fval. cbn [fst snd]. split; [split; [nia|split; [nia|easy]]|].
  subst a b. rewrite !mult_IZR. assert (IZR g <> 0) by (apply not_0_IZR; lia). assert (IZR b' <> 0) by (apply not_0_IZR; nia). field. easy.
Qed.
Lemma gm_point_ok s n i beta : (i <= s)%nat -> length beta = S n -> total beta = (s - i)%nat ->
  exists k, gm_point s n i beta = Ok k /\ goodkey n k /\ lam k = lamb (2 * s + 1 + n - 2 * i) beta.
Proof.
  intros Hi Hl Ht. set (den := (2 * s + 1 + n - 2 * i)%nat). assert (Hden : (0 < den)%nat) by (unfold den; lia).
  assert (H : forall b, exists k, mapM (fun beta_i => simplify_fraction (2 * Z.of_nat beta_i + 1, Z.of_nat den)%Z) b = Ok k
     /\ length k = length b /\ Forall goodfrac k /\ lam k = lamb den b).
  { induction b as [|x b (k & E & H1 & H2 & H3)].
    - exists []. repeat split; constructor.
    - destruct (simplify_pos (2 * Z.of_nat x + 1) (Z.of_nat den)) as (p & Ep & Gp & Vp); [lia|lia|].
      exists (p :: k). cbn [mapM]. rewrite Ep. cbn [bind]. rewrite E. cbn [bind]. split; [reflexivity|]. split; [cbn; lia|].
      split; [now constructor|]. unfold lam, lamb in *. cbn [map]. rewrite H3, Vp. f_equal.
      rewrite plus_IZR, mult_IZR, <- !INR_IZR_INZ. reflexivity. }
  destruct (H beta) as (k & E & H1 & H2 & H3). exists k. unfold gm_point. fold den. split; [exact E|]. split; [|easy].
  split; [congruence|]. split; [easy|]. rewrite H3. assert (Hd0 : INR den <> 0) by (apply not_0_INR; lia).
  assert (HE : INR den = 2 * INR (s - i) + INR (S n)).
  { change 2 with (INR 2). rewrite <- mult_INR, <- plus_INR. f_equal. unfold den. lia. }
  rewrite list_sum_lamb by easy. rewrite Ht, Hl, HE. rewrite HE in Hd0. field. easy.
Qed.

(** ** The dictionary *)
Lemma frac_eqb_eq p q : frac_eqb p q = true <-> p = q.
Proof.
  destruct p as [a b], q as [c d]. unfold frac_eqb. cbn [fst snd]. rewrite andb_true_iff, !Z.eqb_eq.
  split; [intros [-> ->]; reflexivity|]. intros H. now injection H.
Qed.
Lemma key_eqb_eq s t : key_eqb s t = true <-> s = t.
Proof.
  revert t. induction s as [|a s IH]; intros [|b t]; cbn [key_eqb]; try easy.
  rewrite andb_true_iff, frac_eqb_eq, IH. split; [intros [-> ->]; reflexivity|]. intros H. now injection H.
Qed.
Definition dsum (Phi : list R -> R) (d : list (list (Z * Z) * R)) : R := lsum (fun kw => snd kw * Phi (lam (fst kw))) d.
Lemma dict_add_sum Phi k w d : dsum Phi (dict_add k w d) = dsum Phi d + w * Phi (lam k).
Proof.
  unfold dsum. induction d as [|(k', w') d IH]; cbn [dict_add].
  - unfold lsum, list_sum. cbn [map fold_right fst snd]. ring.
  - destruct (key_eqb k' k) eqn:E.
    + apply key_eqb_eq in E. subst k'. rewrite !lsum_cons. cbn [fst snd]. ring.
    + rewrite !lsum_cons, IH. cbn [fst snd]. ring.
Qed.
Lemma dict_add_keys k w d : (forall k', In k' (map fst (dict_add k w d)) <-> k' = k \/ In k' (map fst d)).
Proof.
  intros k'. induction d as [|(k1, w1) d IH]; cbn [dict_add].
  - cbn. intuition.
  - destruct (key_eqb k1 k) eqn:E.
    + apply key_eqb_eq in E. subst k1. cbn. intuition.
    + cbn [map fst]. cbn [In]. rewrite IH. intuition.
Qed.
Lemma dict_add_NoDup k w d : NoDup (map fst d) -> NoDup (map fst (dict_add k w d)).
Proof.
  induction d as [|(k1, w1) d IH]; cbn [dict_add]; intros H.
  - repeat constructor. easy.
  - destruct (key_eqb k1 k) eqn:E; [exact H|]. cbn [map fst] in *. inversion H as [|? ? H1 H2]; subst. constructor; [|now apply IH].
    rewrite dict_add_keys. intros [->|K]; [|easy]. assert (key_eqb k k = true) by now apply key_eqb_eq. congruence.
Qed.
Definition gooddict (n : nat) (d : list (list (Z * Z) * R)) : Prop :=
  NoDup (map fst d) /\ forall k, In k (map fst d) -> goodkey n k.
Lemma gm_inner s n i : (i <= s)%nat -> forall bs d, gooddict n d ->
  (forall b, In b bs -> length b = S n /\ total b = (s - i)%nat) ->
  exists d', foldM (fun d beta => let* point := gm_point s n i beta in Ok (dict_add point (gm_weight s n i) d)) bs d = Ok d'
    /\ gooddict n d'
    /\ (forall Phi, dsum Phi d' = dsum Phi d + gm_weight s n i * lsum (fun b => Phi (lamb (2 * s + 1 + n - 2 * i) b)) bs).
Proof.
  intros Hi. induction bs as [|b bs IH]; intros d [Hd1 Hd2] Hb; cbn [foldM].
  - exists d. split; [reflexivity|]. split; [now split|]. intros Phi. unfold lsum; cbn. ring.
  - destruct (Hb b (or_introl eq_refl)) as [L T]. destruct (gm_point_ok s n i b Hi L T) as (k & -> & Gk & Ek). cbn [bind].
    destruct (IH (dict_add k (gm_weight s n i) d)) as (d' & E & Gd & HS).
    + split; [now apply dict_add_NoDup|]. intros k'. rewrite dict_add_keys. intros [->|K]; [easy|now apply Hd2].
    + intros b' Hb'. apply Hb. now right.
    + exists d'. split; [exact E|]. split; [easy|]. intros Phi. rewrite HS, dict_add_sum, Ek, lsum_cons. ring.
Qed.
Lemma gm_betas_in s n i b : In b (gm_betas s n i) -> length b = S n /\ total b = (s - i)%nat.
Proof.
  unfold gm_betas. replace (n + 1)%nat with (S n) by lia. intros H. apply (proj1 (proj2 (betas_spec n (s - i)) b)). exact H.
Qed.
Lemma gm_dict_ok s n : exists d, gm_points_to_weights s n = Ok d /\ gooddict n d
  /\ forall Phi, dsum Phi d = rsum (fun i => gm_weight s n i * lsum (fun b => Phi (lamb (2 * s + 1 + n - 2 * i) b)) (comps (S n) (s - i))) (S s).
Proof.
  unfold gm_points_to_weights. replace (s + 1)%nat with (S s) by lia.
  assert (H : forall m st d, (st + m <= S s)%nat -> gooddict n d ->
    exists d', foldM (fun d i => foldM (fun d beta => let* point := gm_point s n i beta in
        Ok (dict_add point (gm_weight s n i) d)) (gm_betas s n i) d) (seq st m) d = Ok d' /\ gooddict n d'
    /\ forall Phi, dsum Phi d' = dsum Phi d
        + rsum (fun i => gm_weight s n (st + i) * lsum (fun b => Phi (lamb (2 * s + 1 + n - 2 * (st + i)) b)) (comps (S n) (s - (st + i)))) m).
  { induction m as [|m IH]; intros st d Hm Gd; cbn [seq foldM].
    - exists d. split; [reflexivity|]. split; [easy|]. intros Phi. cbn. ring.
    - destruct (gm_inner s n st ltac:(lia) (gm_betas s n st) d Gd (gm_betas_in s n st)) as (d1 & E1 & G1 & S1). rewrite E1. cbn [bind].
      destruct (IH (S st) d1 ltac:(lia) G1) as (d2 & E2 & G2 & S2). exists d2. split; [exact E2|]. split; [easy|].
      intros Phi. rewrite S2, S1, rsum_shift, Nat.add_0_r. rewrite Rplus_assoc. f_equal. f_equal.
      + f_equal. apply lsum_perm. unfold gm_betas. replace (n + 1)%nat with (S n) by lia. apply betas_comps.
      + apply rsum_ext. intros k _. replace (S st + k)%nat with (st + S k)%nat by lia. reflexivity. }
  destruct (H (S s) 0%nat [] ltac:(lia)) as (d & E & G & HS).
  { split; [constructor|easy]. }
  exists d. split; [exact E|]. split; [easy|]. intros Phi. rewrite HS. unfold dsum, lsum at 1. cbn [map list_sum fold_right]. rewrite Rplus_0_l. reflexivity.
Qed.

(** ** Moments *)
Lemma monoval_lamb den a beta : INR den <> 0 -> length a = length beta ->
  monoval a (lamb den beta) = monoval a (map (fun b => 2 * INR b + 1) beta) / INR den ^ total a.
Proof.
  intros Hd. revert beta. induction a as [|x a IH]; intros [|b beta] H; try discriminate.
  - unfold total; cbn. field.
  - unfold lamb in *. cbn [map monoval]. cbn in H. rewrite IH by lia. unfold total. cbn [fold_right]. rewrite pow_add.
    unfold Rdiv. rewrite Rpow_mult_distr, pow_inv. rewrite Rinv_mult. ring.
Qed.
Lemma S_of_comps a : forall m, lsum (fun b => monoval a (map (fun b => 2 * INR b + 1) b)) (comps (length a) m) = S_of a m.
Proof.
  induction a as [|x a IH]; intros m.
  - destruct m; unfold lsum; cbn; ring.
  - cbn [length comps S_of]. rewrite lsum_flat_seq. unfold conv. apply rsum_ext. intros k _. rewrite Nat.add_0_l, lsum_map.
    cbn [map monoval]. unfold F. rewrite lsum_scal, IH. reflexivity.
Qed.
Lemma gm_moment_top s n a d : gm_points_to_weights s n = Ok d -> length a = S n -> total a = (2 * s + 1)%nat ->
  dsum (monoval a) d = prodfact a / INR (fact (total a + n)).
Proof.
  intros Ed La Ta. destruct (gm_dict_ok s n) as (d' & E & _ & HS). rewrite Ed in E. injection E as <-. rewrite HS. clear HS Ed d.
  pose proof (gm_identity s a Ta ltac:(lia)) as GI. fold (prodfact a) in GI.
  assert (H4 : 4 ^ s <> 0) by (apply pow_nonzero; lra). pose proof (INR_fact_neq_0 (total a + n)) as HF.
  replace (prodfact a / INR (fact (total a + n))) with (/ (4 ^ s * INR (fact (total a + n))) * (4 ^ s * prodfact a)) by (field; easy).
  rewrite <- GI, <- rsum_scal. apply rsum_ext. intros i Hi.
  set (den := (2 * s + 1 + n - 2 * i)%nat). assert (Hden : INR den <> 0) by (apply not_0_INR; unfold den; lia).
  rewrite (lsum_ext _ (fun b => / INR den ^ total a * monoval a (map (fun b => 2 * INR b + 1) b))).
  2:{ intros b Hb. apply comps_in in Hb. rewrite monoval_lamb by (try easy; lia). unfold Rdiv. ring. }
  rewrite lsum_scal, <- La, S_of_comps. unfold gm_weight. fold den. cbv zeta.
  pose proof (comb_fact (2 * s + length a) i ltac:(lia)) as CF. apply (f_equal INR) in CF. rewrite !mult_INR in CF.
  replace (2 * s + 1 + n - i)%nat with (2 * s + length a - i)%nat by lia.
  replace (total a + n)%nat with (2 * s + length a)%nat in * by lia.
  rewrite <- CF. rewrite Ta. rewrite (pow_mult 2 2 s). replace (2 ^ 2) with 4 by ring.
  pose proof (INR_fact_neq_0 i). pose proof (INR_fact_neq_0 (2 * s + length a - i)).
  assert (INR (comb (2 * s + length a) i) <> 0).
  { intros Z. rewrite Z in CF. apply HF. rewrite <- CF. ring. }
  assert (INR den ^ (2 * s + 1) <> 0) by (now apply pow_nonzero). field. repeat split; easy.
Qed.
Fixpoint bumps (a : list nat) : list (list nat) :=
  match a with [] => [] | x :: a' => (S x :: a') :: map (cons x) (bumps a') end.
Lemma bumps_in a b : In b (bumps a) -> length b = length a /\ total b = S (total a).
Proof.
  revert b. induction a as [|x a IH]; intros b; cbn [bumps]; [easy|]. intros [<-|H].
  - split; [reflexivity|]. unfold total; cbn [fold_right]; lia.
  - apply in_map_iff in H. destruct H as (r & <- & H). apply IH in H. destruct H as [H1 H2]. split; [cbn; lia|]. unfold total in *; cbn [fold_right]; lia.
Qed.
Lemma bumps_monoval a l : length a = length l -> lsum (fun b => monoval b l) (bumps a) = list_sum l * monoval a l.
Proof.
  revert l. induction a as [|x a IH]; intros [|t l] H; try discriminate; [unfold lsum; cbn; ring|].
  cbn [bumps]. rewrite lsum_cons, lsum_map. cbn [monoval]. rewrite lsum_scal, IH by (cbn in H; lia).
  unfold list_sum. cbn [fold_right pow]. ring.
Qed.
Lemma bumps_prodfact a : lsum prodfact (bumps a) = INR (total a + length a) * prodfact a.
Proof.
  induction a as [|x a IH]; [unfold lsum, total; cbn; ring|].
  cbn [bumps]. rewrite lsum_cons, lsum_map. rewrite (lsum_ext _ (fun b => INR (fact x) * prodfact b)) by (intros; apply prodfact_cons).
  rewrite lsum_scal, IH, !prodfact_cons, fact_simpl, mult_INR. unfold total. cbn [fold_right length]. fold (total a).
  rewrite !plus_INR, !S_INR. ring.
Qed.
Lemma gm_moment s n d : gm_points_to_weights s n = Ok d -> forall m a, length a = S n -> (total a + m = 2 * s + 1)%nat ->
  dsum (monoval a) d = prodfact a / INR (fact (total a + n)).
Proof.
  intros Ed. destruct (gm_dict_ok s n) as (d' & E & [_ G] & _). rewrite Ed in E. injection E as <-.
  induction m as [|m IH]; intros a La Ta; [apply (gm_moment_top s); try easy; lia|].
  transitivity (lsum (fun b => dsum (monoval b) d) (bumps a)).
  - unfold dsum. rewrite lsum_swap. apply lsum_ext. intros (k, w) Hk. cbn [fst snd]. rewrite lsum_scal.
    destruct (G k) as (L & _ & S1); [apply in_map_iff; exists (k, w); now split|].
    rewrite bumps_monoval by (unfold lam; rewrite map_length; lia). rewrite S1. ring.
  - rewrite (lsum_ext _ (fun b => / INR (fact (S (total a) + n)) * prodfact b)).
    + rewrite lsum_scal, bumps_prodfact. replace (S (total a) + n)%nat with (S (total a + n)) by lia.
      replace (total a + length a)%nat with (S (total a + n)) by lia. rewrite fact_simpl, mult_INR.
      pose proof (INR_fact_neq_0 (total a + n)). assert (INR (S (total a + n)) <> 0) by (apply not_0_INR; lia). field. split; easy.
    + intros b Hb. apply bumps_in in Hb. destruct Hb as [Lb Tb]. rewrite IH by lia. rewrite Tb. unfold Rdiv. ring.
Qed.

(** ** Nodes *)
Lemma vec_add_length u v : length u = length v -> length (vec_add u v) = length u.
Proof. intros H. unfold vec_add. rewrite map_length, combine_length. lia. Qed.
Lemma vec_add_nth u v k : length u = length v -> nth k (vec_add u v) 0 = nth k u 0 + nth k v 0.
Proof.
  revert v k. induction u as [|a u IH]; intros [|b v] k H; try discriminate.
  - destruct k; cbn; ring.
  - destruct k as [|k]; [reflexivity|]. unfold vec_add. cbn. apply IH. cbn in H; lia.
Qed.
Lemma fold_vec_add n ts : forall t, length t = n -> Forall (fun u => length u = n) ts ->
  length (fold_left vec_add ts t) = n
  /\ forall k, nth k (fold_left vec_add ts t) 0 = nth k t 0 + lsum (fun u => nth k u 0) ts.
Proof.
  induction ts as [|u ts IH]; intros t Ht F; cbn [fold_left].
  - split; [easy|]. intros k. unfold lsum; cbn. ring.
  - inversion F as [|? ? Hu F']; subst. destruct (IH (vec_add t u)) as [L N]; [rewrite vec_add_length; congruence|easy|].
    split; [easy|]. intros k. rewrite N, vec_add_nth by congruence. rewrite lsum_cons. ring.
Qed.
Lemma gm_vertices_facts n : length (gm_vertices n) = S n /\ Forall (fun v => length v = n) (gm_vertices n)
  /\ forall ls, length ls = S n -> forall k, (k < n)%nat ->
     lsum (fun p => fst p * nth k (snd p) 0) (combine ls (gm_vertices n)) = 2 * nth (S k) ls 0 - list_sum ls.
Proof.
  unfold gm_vertices.
  assert (W : forall n, length (wandering_element n) = n /\ Forall (fun v => length v = n) (wandering_element n)
     /\ forall ls k, length ls = n -> (k < n)%nat ->
        lsum (fun p => fst p * nth k (snd p) 0) (combine ls (map (map (fun t => 2 * INR t - 1)) (wandering_element n)))
          = 2 * nth k ls 0 - list_sum ls).
  { clear n. induction n as [|n (W1 & W2 & W3)]; [split; [reflexivity|split; [constructor|intros; lia]]|].
    rewrite wandering_S. split; [cbn; now rewrite map_length, W1|]. split.
    - constructor; [cbn; now rewrite repeat_length|]. apply Forall_map. eapply Forall_impl; [|exact W2]. intros v Hv. cbn. now rewrite Hv.
    - intros [|l ls] k Hl Hk; [discriminate|]. cbn [map combine]. rewrite map_map. cbn [map]. rewrite lsum_cons. cbn [fst snd].
      cbn in Hl. destruct k as [|k].
      + cbn [nth]. assert (E : lsum (fun p : R * list R => fst p * nth 0 (snd p) 0)
            (combine ls (map (fun x => (2 * INR 0 - 1) :: map (fun t => 2 * INR t - 1) x) (wandering_element n))) = - list_sum ls).
        { revert ls Hl. clear W2 W3. generalize (wandering_element n) W1. intros w Hw. clear W1. intros ls Hl. assert (Hlw : length ls = length w) by lia. clear Hl Hw Hk n.
          revert w Hlw. induction ls as [|c ls IH]; intros [|v w] H; try discriminate; [unfold lsum; cbn; ring|].
          cbn [map combine]. rewrite lsum_cons, IH by (cbn in H; lia). cbn [fst snd nth]. change (INR 0) with 0. unfold list_sum. cbn [fold_right]. ring. }
        rewrite E. change (INR 1) with 1. unfold list_sum. cbn [fold_right]. ring.
      + cbn [nth]. assert (E : lsum (fun p : R * list R => fst p * nth (S k) (snd p) 0)
            (combine ls (map (fun x => (2 * INR 0 - 1) :: map (fun t => 2 * INR t - 1) x) (wandering_element n)))
            = lsum (fun p => fst p * nth k (snd p) 0) (combine ls (map (map (fun t => 2 * INR t - 1)) (wandering_element n)))).
        { clear. revert ls. induction (wandering_element n) as [|v w IH]; intros [|c ls]; try reflexivity.
          cbn [map combine]. rewrite !lsum_cons, IH. reflexivity. }
        rewrite E, W3 by lia. rewrite <- (map_nth (fun t => 2 * INR t - 1)) || idtac.
        assert (N : nth k (map (fun t => 2 * INR t - 1) (repeat 0%nat n)) 0 = -1).
        { rewrite (nth_indep _ 0 ((fun t => 2 * INR t - 1) 0%nat)) by (rewrite map_length, repeat_length; lia).
          rewrite (map_nth (fun t => 2 * INR t - 1)), nth_repeat. change (INR 0) with 0. ring. }
        rewrite N. unfold list_sum. cbn [fold_right]. ring. }
  destruct (W n) as (W1 & W2 & W3). split; [cbn; now rewrite map_length, W1|]. split.
  - constructor; [apply repeat_length|]. apply Forall_map. eapply Forall_impl; [|exact W2]. intros v Hv. now rewrite map_length.
  - intros [|l ls] Hl k Hk; [discriminate|]. cbn [combine]. rewrite lsum_cons. cbn [fst snd]. cbn in Hl. rewrite W3 by lia.
    rewrite (nth_indep _ 0 (-1)) by (rewrite repeat_length; lia). rewrite nth_repeat. unfold list_sum. cbn [nth fold_right]. ring.
Qed.
Lemma gm_node_ok n k : goodkey n k -> (0 < n)%nat ->
  gm_node n k = Ok (map (fun l => 2 * l - 1) (tl (lam k))).
Proof.
  intros (L & _ & S1) Hn. destruct (gm_vertices_facts n) as (V1 & V2 & V3). specialize (V3 (lam k)).
  unfold gm_node.
  assert (Z : forall k vs, length k = length vs ->
     zipM (fun ab v => Ok (map (fun c => IZR (fst ab) / IZR (snd ab) * c) v)) k vs
     = Ok (map (fun p => map (fun c => fst p * c) (snd p)) (combine (lam k) vs))).
  { clear. induction k as [|p k IH]; intros [|v vs] H; try discriminate; [reflexivity|]. cbn [zipM bind]. rewrite IH by (cbn in H; lia). reflexivity. }
  rewrite Z by congruence. cbn [bind].
  assert (LL : length (lam k) = S n) by (unfold lam; now rewrite map_length).
  remember (map (fun p => map (fun c => fst p * c) (snd p)) (combine (lam k) (gm_vertices n))) as ts eqn:Ets.
  assert (Fts : Forall (fun u => length u = n) ts).
  { subst ts. apply Forall_map. apply Forall_forall. intros (c, v) Hp. cbn [fst snd]. rewrite map_length. apply in_combine_r in Hp.
    rewrite Forall_forall in V2. now apply V2. }
  assert (Lts : length ts = S n) by (subst ts; rewrite map_length, combine_length; lia).
  assert (Nts : forall j, (j < n)%nat -> lsum (fun u => nth j u 0) ts = 2 * nth (S j) (lam k) 0 - 1).
  { intros j Hj. subst ts. rewrite lsum_map. rewrite <- S1, <- V3 by easy. apply lsum_ext. intros (c, v) _. cbn [fst snd].
    replace 0 with (c * 0) at 1 by ring. now rewrite (map_nth (fun x => c * x)). }
  destruct ts as [|t ts]; [discriminate|]. f_equal. inversion Fts as [|? ? Ht F]; subst.
  destruct (fold_vec_add (length t) ts t eq_refl F) as [FL FN].
  apply (nth_ext _ _ 0 0).
  - rewrite FL, map_length. destruct (lam k); [discriminate|]. cbn in *. lia.
  - intros j Hj. rewrite FL in Hj. rewrite FN. specialize (Nts j Hj). rewrite lsum_cons in Nts. rewrite Nts.
    destruct (lam k) as [|l0 ls]; [discriminate|]. cbn [tl nth]. cbn in LL.
    rewrite (nth_indep (map (fun l => 2 * l - 1) ls) 0 ((fun l => 2 * l - 1) 0)) by (rewrite map_length; lia).
    now rewrite (map_nth (fun l => 2 * l - 1)).
Qed.
Lemma list_sum_map_affine ls a b : list_sum (map (fun l => a * l + b) ls) = a * list_sum ls + INR (length ls) * b.
Proof.
  unfold list_sum. induction ls as [|l ls IH]; [cbn; ring|]. cbn [map fold_right length]. rewrite IH, S_INR. ring.
Qed.
Lemma good_node_in n k : goodkey n k -> in_simplex n (map (fun l => 2 * l - 1) (tl (lam k))).
Proof.
  intros (L & F & S1). destruct k as [|p k]; [discriminate|]. unfold lam in *. cbn [map tl] in *. cbn in L.
  inversion F as [|? ? Hp F']; subst.
  assert (Pos : forall q, goodfrac q -> 0 < fval q).
  { intros (a, b) (Ha & Hb & _). unfold fval. cbn [fst snd] in *. apply Rdiv_lt_0_compat; now apply IZR_lt. }
  split; [rewrite !map_length; lia|]. split.
  - apply Forall_map, Forall_map. eapply Forall_impl; [|exact F']. intros q Hq. cbv beta. specialize (Pos q Hq). lra.
  - rewrite (map_ext _ (fun l => 2 * l + -1)) by (intros; ring). rewrite list_sum_map_affine, map_length.
    unfold list_sum in S1. cbn [map fold_right] in S1. specialize (Pos p Hp). unfold list_sum at 1. replace (length k) with n by lia.
    assert (fold_right Rplus 0 (map fval k) = 1 - fval p) as -> by lra. lra.
Qed.
Lemma good_node_inj n k k' : goodkey n k -> goodkey n k' ->
  map (fun l => 2 * l - 1) (tl (lam k)) = map (fun l => 2 * l - 1) (tl (lam k')) -> k = k'.
Proof.
  intros G G' E. apply (goodkey_inj n); [easy|easy|]. destruct G as (L & _ & S1), G' as (L' & _ & S1').
  destruct k as [|p k]; [discriminate|]. destruct k' as [|p' k']; [discriminate|]. unfold lam in *. cbn [map tl] in *.
  assert (E' : map fval k = map fval k').
  { apply (f_equal (map (fun c => (c + 1) / 2))) in E. rewrite !map_map in E. rewrite <- (map_map fval (fun l => (2 * l - 1 + 1) / 2)) in E.
    rewrite <- (map_map fval (fun l => (2 * l - 1 + 1) / 2) k') in E. rewrite !map_id_in in E by (intros; field). exact E. }
  rewrite E'. f_equal. unfold list_sum in *. cbn [fold_right] in *. rewrite E' in S1. lra.
Qed.

(** ** The rule *)
Lemma dotR_map {B} (f g : B -> R) l : dotR (map f l) (map g l) = lsum (fun x => f x * g x) l.
Proof. unfold dotR, lsum. induction l as [|x l IH]; [reflexivity|]. cbn [map combine fold_right]. now rewrite IH. Qed.
Lemma gm_quad_pos s n : (0 < n)%nat -> exists d, gm_points_to_weights s n = Ok d /\ gooddict n d
  /\ gm_quad s n = Ok (mkQuad false n (map (fun kw => map (fun l => 2 * l - 1) (tl (lam (fst kw)))) d)
                        (map (fun kw => 2 ^ n * snd kw) d) (Some (degree (2 * s + 1)))).
Proof.
  intros Hn. destruct (gm_dict_ok s n) as (d & E & G & _). exists d. split; [easy|]. split; [easy|].
  unfold gm_quad. destruct (Nat.eqb_spec n 0) as [->|_]; [lia|]. rewrite E. cbn [bind].
  rewrite (mapM_Ok _ (fun kw => map (fun l => 2 * l - 1) (tl (lam (fst kw))))).
  - reflexivity.
  - intros (k, w) Hk. apply gm_node_ok; [|easy]. apply G. apply in_map_iff. exists (k, w). now split.
Qed.
Lemma gm_exact s n q phi f : gm_quad s n = Ok q -> is_poly n (2 * s + 1) phi ->
  (forall x, In x (q_nodes q) -> f x = Ok (phi x)) ->
  exists v, is_int (Simplex n) phi v /\ q_call q f = Ok v.
Proof.
  intros Eq Hp Hf. destruct (Nat.eq_dec n 0) as [->|Hn].
  { unfold gm_quad in Eq. cbn [Nat.eqb] in Eq. injection Eq as <-. exists (phi []). split; [reflexivity|].
    unfold q_call. cbn [q_nodes q_weights mapM]. rewrite Hf by (now left). cbn [bind length Nat.eqb]. f_equal. unfold dotR. cbn. ring. }
  destruct (gm_quad_pos s n ltac:(lia)) as (d & Ed & G & E). rewrite Eq in E. injection E as ->. cbn [q_nodes] in Hf.
  destruct (is_poly_half n (2 * s + 1) phi Hp) as (ts & Fts & Hts).
  assert (QC : q_call (mkQuad false n (map (fun kw => map (fun l => 2 * l - 1) (tl (lam (fst kw)))) d)
                        (map (fun kw => 2 ^ n * snd kw) d) (Some (degree (2 * s + 1)))) f
     = Ok (2 ^ n * dsum (fun l => polyval ts (tl l)) d)).
  { unfold q_call. cbn [q_nodes q_weights].
    rewrite (mapM_Ok f phi) by exact Hf. cbn [bind]. rewrite !map_length, Nat.eqb_refl. f_equal. rewrite map_map, dotR_map.
    unfold dsum. rewrite <- lsum_scal. apply lsum_ext. intros (k, w) Hk. cbn [fst snd]. rewrite Rmult_assoc. f_equal. f_equal.
    assert (Gk : goodkey n k) by (apply G; apply in_map_iff; exists (k, w); now split).
    rewrite Hts by (now apply good_node_in). f_equal. rewrite map_map. apply map_id_in. intros; field. }
  exists (2 ^ n * dsum (fun l => polyval ts (tl l)) d). split; [|exact QC]. clear QC Eq Hf f.
  enough (H : is_int (Simplex n) (fun x => polyval ts (map (fun c => (c + 1) / 2) x)) (2 ^ n * dsum (fun l => polyval ts (tl l)) d)).
  { eapply is_int_ext; [|exact H]. intros x Hx. symmetry. apply Hts. cbn in Hx. now destruct Hx. }
  clear Hts Hp phi. induction Fts as [|(c, e) ts [Le Te] Fts IH].
  - cbn [polyval fold_right]. unfold dsum. rewrite (lsum_ext _ (fun kw => 0 * snd kw)) by (intros; unfold polyval; cbn; ring).
    rewrite lsum_scal, Rmult_0_l, Rmult_0_r. 
    pose proof (is_int_scal (Simplex n) 0 _ _ (dirichlet_ref n (repeat 0%nat n) (repeat_length _ _))) as H.
    rewrite Rmult_0_l in H. eapply is_int_ext; [|exact H]. intros x _. cbv beta. unfold polyval. cbn. ring.
  - cbn [fst snd] in Le, Te.
    pose proof (is_int_plus _ _ _ _ _ (is_int_scal _ c _ _ (dirichlet_ref n e Le)) IH) as H.
    assert (M : dsum (monoval (0%nat :: e)) d = prodfact e / INR (fact (total e + n))).
    { rewrite (gm_moment s n d Ed (2 * s + 1 - total e)); [|cbn; lia|].
      - rewrite prodfact_cons. cbn [fact]. change (INR 1) with 1. unfold total. cbn [fold_right]. rewrite Nat.add_0_l. unfold Rdiv. ring.
      - unfold total in *. cbn [fold_right]. lia. }
    replace (2 ^ n * dsum (fun l => polyval ((c, e) :: ts) (tl l)) d)
      with (c * (2 ^ n * (prodfact e / INR (fact (total e + n)))) + 2 ^ n * dsum (fun l => polyval ts (tl l)) d).
    + eapply is_int_ext; [|exact H]. intros x _. reflexivity.
    + rewrite <- M. unfold dsum.
      replace (lsum (fun kw : list (Z * Z) * R => snd kw * polyval ((c, e) :: ts) (tl (lam (fst kw)))) d)
        with (c * lsum (fun kw : list (Z * Z) * R => snd kw * monoval (0%nat :: e) (lam (fst kw))) d
              + lsum (fun kw : list (Z * Z) * R => snd kw * polyval ts (tl (lam (fst kw)))) d); [ring|].
      assert (GG : forall k, In k (map fst d) -> length k = S n) by (intros k Hk; now destruct (proj2 G k Hk)).
      clear -GG. induction d as [|(k, w) d IH]; [unfold lsum; cbn; ring|]. rewrite !lsum_cons. cbn [fst snd].
      rewrite <- IH by (intros; apply GG; now right). specialize (GG k (or_introl eq_refl)).
      assert (HK : c * monoval (0%nat :: e) (lam k) + polyval ts (tl (lam k)) = polyval ((c, e) :: ts) (tl (lam k))).
      { destruct k as [|p k]; [discriminate|]. unfold lam. cbn [map tl monoval pow].
        change (polyval ((c, e) :: ts) (map fval k)) with (c * monoval e (map fval k) + polyval ts (map fval k)). ring. }
      rewrite <- HK. ring.
Qed.
