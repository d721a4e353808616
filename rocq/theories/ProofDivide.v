(** * Polynomials that vanish on the faces of a triangle or a tetrahedron *)
From Coq Require Import List Arith Bool ZArith Reals Lra Lia.
From Verif Require Import Py PyToolsModel RSum SpecGeometry SpecIndex SpecPoly SpecPartial EnumFacts ProofNodeTuples ProofMonomial ProofDirichlet ProofUnisolvent.
Import ListNotations.
Local Open Scope R_scope.

Lemma is_poly_tl m d f : is_poly m d f -> is_poly (S m) d (fun x => f (tl x)).
Proof.
  intros Hf. apply is_poly_ext with (fun x => f (map (fun g => g x) (map (fun i (x : list R) => nth i x 0) (seq 1 m)))).
  { intros [|a x] Hx; [discriminate|]. cbn [tl]. f_equal. rewrite map_map. cbn in Hx. assert (Hm : length x = m) by lia. subst m. clear Hx.
    rewrite <- seq_shift, map_map. cbn [nth]. clear. induction x as [|b x IH]; [reflexivity|]. cbn [length seq map nth]. f_equal.
    rewrite <- seq_shift, map_map. exact IH. }
  apply (is_poly_comp (S m) m d f); [now rewrite map_length, seq_length| |easy].
  apply Forall_forall. intros g Hg. apply in_map_iff in Hg. destruct Hg as (i & <- & Hi). apply in_seq in Hi. apply is_poly_coord. lia.
Qed.
Lemma mono_is_poly e : is_poly (length e) (total e) (monoval e).
Proof. exists [(1, e)]. split; [repeat constructor|]. intros x _. unfold polyval. cbn [fold_right fst snd]. ring. Qed.
Definition geo (c : R) (k : nat) (t : R) : R := rsum (fun j => t ^ j * c ^ (k - 1 - j)) k.
Lemma geo_ok c k t : t ^ k - c ^ k = (t - c) * geo c k t.
Proof.
  induction k as [|k IH]; [unfold geo; cbn; ring|].
  assert (E : geo c (S k) t = c * geo c k t + t ^ k).
  { unfold geo. rewrite rsum_S. replace (S k - 1 - k)%nat with 0%nat by lia. cbn [pow]. rewrite Rmult_1_r. f_equal.
    rewrite <- rsum_scal. apply rsum_ext. intros j Hj. replace (S k - 1 - j)%nat with (S (k - 1 - j)) by lia. cbn [pow]. ring. }
  rewrite E. cbn [pow]. replace ((t - c) * (c * geo c k t + t ^ k)) with (c * ((t - c) * geo c k t) + (t - c) * t ^ k) by ring.
  rewrite <- IH. ring.
Qed.
Lemma geo_poly d i c k : (i < d)%nat -> is_poly d (k - 1) (fun x => geo c k (nth i x 0)).
Proof.
  intros Hi. unfold geo. apply is_poly_rsum with (f := fun j x => nth i x 0 ^ j * c ^ (k - 1 - j)). intros j Hj.
  apply is_poly_weaken with (j * 1)%nat; [lia|]. apply is_poly_ext with (fun x => c ^ (k - 1 - j) * nth i x 0 ^ j); [intros; ring|].
  apply is_poly_scal. apply (is_poly_pow d 1 (fun x => nth i x 0)). now apply is_poly_coord.
Qed.
Lemma mono_total0 e x : length x = length e -> total e = 0%nat -> monoval e x = 1.
Proof.
  revert x. induction e as [|k e IH]; intros [|a x] L T; try discriminate; [reflexivity|]. unfold total in *. cbn [fold_right] in T.
  assert (k = 0)%nat as -> by lia. cbn [monoval pow]. rewrite IH; [ring|cbn in L; lia|unfold total; lia].
Qed.
Lemma mono_div e : forall i c, (i < length e)%nat -> exists g, is_poly (length e) (total e - 1) g
  /\ forall x, length x = length e -> monoval e x - monoval e (upd x i c) = (nth i x 0 - c) * g x.
Proof.
  induction e as [|k e IH]; intros i c Hi; [cbn in Hi; lia|]. cbn [length]. change (total (k :: e)) with (k + total e)%nat. destruct i as [|i].
  - destruct k as [|k].
    + exists (fun _ => 0). split; [apply is_poly_const|]. intros [|a x] Hx; [discriminate|]. cbn [upd monoval pow]. ring.
    + exists (fun x => geo c (S k) (nth 0 x 0) * monoval e (tl x)). split.
      * replace (S k + total e - 1)%nat with ((S k - 1) + total e)%nat by lia. apply is_poly_mult; [apply geo_poly; lia|].
        apply is_poly_tl, mono_is_poly.
      * intros [|a x] Hx; [discriminate|]. cbn [upd monoval nth tl]. replace (a ^ S k * monoval e x - c ^ S k * monoval e x) with ((a ^ S k - c ^ S k) * monoval e x) by ring.
        rewrite geo_ok. ring.
  - cbn in Hi. destruct (Nat.eq_dec (total e) 0) as [T|T].
    + exists (fun _ => 0). split; [apply is_poly_const|]. intros [|a x] Hx; [discriminate|]. cbn in Hx. cbn [upd monoval].
      rewrite !mono_total0 by (rewrite ?upd_length; lia). ring.
    + destruct (IH i c ltac:(lia)) as (g & Hg & E). exists (fun x => nth 0 x 0 ^ k * g (tl x)). split.
      * replace (k + total e - 1)%nat with (k * 1 + (total e - 1))%nat by lia. apply is_poly_mult; [|now apply is_poly_tl].
        apply (is_poly_pow (S (length e)) 1 (fun x => nth 0 x 0)). apply is_poly_coord. lia.
      * intros [|a x] Hx; [discriminate|]. cbn in Hx. cbn [upd monoval nth tl].
        replace (a ^ k * monoval e x - a ^ k * monoval e (upd x i c)) with (a ^ k * (monoval e x - monoval e (upd x i c))) by ring.
        rewrite E by lia. ring.
Qed.
Lemma div_coord d n f i c : (i < d)%nat -> is_poly d (S n) f -> (forall x, length x = d -> nth i x 0 = c -> f x = 0) ->
  exists g, is_poly d n g /\ forall x, length x = d -> f x = (nth i x 0 - c) * g x.
Proof.
  intros Hi (ts & HT & HV) HZ.
  assert (G : exists g, is_poly d n g /\ forall x, length x = d -> polyval ts x - polyval ts (upd x i c) = (nth i x 0 - c) * g x).
  { clear HV HZ. induction HT as [|[a e] ts [H1 H2] HT (g & Hg & IH)].
    - exists (fun _ => 0). split; [apply is_poly_const|]. intros x _. unfold polyval. cbn. ring.
    - cbn [snd] in *. destruct (mono_div e i c) as (h & Hh & E); [lia|]. exists (fun x => a * h x + g x). split.
      + apply is_poly_plus; [|easy]. apply is_poly_scal. rewrite H1 in Hh. apply (is_poly_weaken d (total e - 1)); [|easy]. unfold total. lia.
      + intros x Hx. unfold polyval in *. cbn [fold_right fst snd].
        match goal with |- ?A + ?B - (?C + ?D) = _ => replace (A + B - (C + D)) with (a * (monoval e x - monoval e (upd x i c)) + (B - D)) by ring end.
        rewrite (IH x Hx), E by congruence. ring. }
  destruct G as (g & Hg & E). exists g. split; [easy|]. intros x Hx. rewrite <- E by easy. rewrite HV by easy.
  rewrite <- (HV (upd x i c)) by (now rewrite upd_length). rewrite (HZ (upd x i c)); [ring|now rewrite upd_length|].
  clear -Hi Hx. revert i d Hi Hx. induction x as [|a x IH]; intros [|i] d Hi Hx; cbn in *; try lia; [reflexivity|]. apply (IH i (d - 1)%nat); lia.
Qed.

(** the exchange of vertex 0 and vertex 1 *)
Definition swap0 (x : list R) : list R := (1 - INR (length x) - list_sum x) :: tl x.
Lemma list_sum_poly d : is_poly d 1 list_sum.
Proof.
  apply is_poly_ext with (fun x => rsum (fun k => nth k x 0) d).
  - intros x Hx. revert d Hx. induction x as [|a x IH]; intros d Hx; cbn in Hx; subst d; [reflexivity|].
    rewrite rsum_shift. cbn [nth]. rewrite IH by reflexivity. reflexivity.
  - apply is_poly_rsum with (f := fun k x => nth k x 0). intros k Hk. now apply is_poly_coord.
Qed.
Lemma swap0_poly d m f : (1 <= d)%nat -> is_poly d m f -> is_poly d m (fun x => f (swap0 x)).
Proof.
  intros Hd Hf. apply is_poly_ext with (fun x => f (map (fun g => g x) ((fun x => 1 - INR d - list_sum x) :: map (fun i (x : list R) => nth i x 0) (seq 1 (d - 1))))).
  { intros x Hx. f_equal. unfold swap0. rewrite Hx. cbn [map]. f_equal. destruct x as [|a x]; [cbn in Hx; lia|]. cbn in Hx. subst d.
    cbn [tl]. rewrite map_map. replace (S (length x) - 1)%nat with (length x) by lia. rewrite <- seq_shift, map_map. cbn [nth]. clear.
    induction x as [|b x IH]; [reflexivity|]. cbn [length seq map nth]. f_equal. rewrite <- seq_shift, map_map. exact IH. }
  apply (is_poly_comp d d m f); [cbn [length]; rewrite map_length, seq_length; lia| |easy]. constructor.
  - apply is_poly_ext with (fun x => (1 - INR d) + -1 * list_sum x); [intros; ring|]. apply is_poly_plus; [apply is_poly_const|]. apply is_poly_scal, list_sum_poly.
  - apply Forall_forall. intros g Hg. apply in_map_iff in Hg. destruct Hg as (i & <- & Hi). apply in_seq in Hi. apply is_poly_coord. lia.
Qed.
Lemma swap0_len x : (1 <= length x)%nat -> length (swap0 x) = length x.
Proof. destruct x; cbn; lia. Qed.
Lemma swap0_invol x : (1 <= length x)%nat -> swap0 (swap0 x) = x.
Proof.
  intros H. unfold swap0 at 1. rewrite swap0_len by easy. destruct x as [|a x]; [cbn in H; lia|]. unfold swap0. cbn [tl]. f_equal.
  unfold list_sum. cbn [fold_right]. ring.
Qed.
Lemma div_sum d n f : (1 <= d)%nat -> is_poly d (S n) f -> (forall x, length x = d -> list_sum x = 2 - INR d -> f x = 0) ->
  exists g, is_poly d n g /\ forall x, length x = d -> f x = (2 - INR d - list_sum x) * g x.
Proof.
  intros Hd Hf HZ. destruct (div_coord d n (fun x => f (swap0 x)) 0 (-1) ltac:(lia) (swap0_poly d _ f Hd Hf)) as (g & Hg & E).
  { intros x Hx H0. apply HZ; [rewrite swap0_len; lia|]. destruct x as [|a x]; [cbn in Hx; lia|]. cbn [nth] in H0. subst a.
    unfold swap0. rewrite Hx. cbn [tl]. unfold list_sum. cbn [fold_right]. ring. }
  exists (fun x => g (swap0 x)). split; [now apply swap0_poly|]. intros x Hx. specialize (E (swap0 x)). rewrite swap0_invol in E by lia.
  rewrite E by (rewrite swap0_len; lia). unfold swap0 at 1. cbn [nth]. rewrite Hx. ring.
Qed.

(** Polynomials that vanish at points with large coordinates *)
Lemma poly_zero_pos d n f : is_poly d n f -> (forall x, length x = d -> Forall (fun t => 1 <= t) x -> f x = 0) ->
  forall x, length x = d -> f x = 0.
Proof.
  intros Hf HZ. apply (poly_zero (fun k => INR k + 1) d n f); [|easy|].
  - intros i j _ _ H. apply INR_eq. lra.
  - intros x Hx. apply in_map_iff in Hx. destruct Hx as (t & <- & Ht). apply gnitsam_in in Ht. destruct Ht as [L _]. apply HZ; [now rewrite map_length|].
    apply Forall_forall. intros y Hy. apply in_map_iff in Hy. destruct Hy as (k & <- & _). pose proof (pos_INR k). lra.
Qed.
Lemma is_poly_const_eq d f : is_poly d 0 f -> exists c, forall x, length x = d -> f x = c.
Proof.
  intros (ts & HT & HV). enough (exists c, forall x, length x = d -> polyval ts x = c) as (c & Hc) by (exists c; intros x Hx; rewrite HV; auto).
  clear HV. induction HT as [|[a e] ts [H1 H2] HT (c & IH)]; [exists 0; intros; reflexivity|]. exists (a + c). intros x Hx.
  unfold polyval in *. cbn [fold_right fst snd] in *. rewrite IH by easy. rewrite mono_total0; [ring|congruence|unfold total; lia].
Qed.
Lemma is_poly_coords k d n f (gs : list (list R -> R)) : length gs = d -> Forall (fun g => is_poly k 1 g) gs -> is_poly d n f ->
  is_poly k n (fun x => f (map (fun g => g x) gs)).
Proof. intros. now apply (is_poly_comp k d n f). Qed.
Ltac aff := repeat first [apply is_poly_coord; lia | apply is_poly_const
  | apply (is_poly_plus _ 1) | apply (is_poly_scal _ 1) ].

(** ** The triangle *)
Lemma tri_bubble n f : is_poly 2 (S (S (S n))) f -> (forall y, f [-1; y] = 0) -> (forall x, f [x; -1] = 0) -> (forall x, f [x; - x] = 0) ->
  exists g, is_poly 2 n g /\ forall x y, f [x; y] = (x + 1) * (y + 1) * (x + y) * g [x; y].
Proof.
  intros Hf H1 H2 H3.
  destruct (div_coord 2 _ f 0 (-1) ltac:(lia) Hf) as (g1 & Hg1 & E1).
  { intros x Hx H0. destruct x as [|a [|b [|]]]; try discriminate. cbn in H0. subst a. apply H1. }
  assert (Z1 : forall x, length x = 1%nat -> g1 [nth 0 x 0; -1] = 0).
  { apply (poly_zero_pos 1 (S (S n)) (fun x => g1 [nth 0 x 0; -1])).
    - apply (is_poly_coords 1 2 _ g1 [(fun x => nth 0 x 0); (fun _ => -1)]); [reflexivity| |easy]. repeat constructor; aff.
    - intros x Hx Hp. destruct x as [|a [|]]; try discriminate. inversion Hp; subst. cbn [nth]. specialize (E1 [a; -1] eq_refl). rewrite H2 in E1. cbn [nth] in E1.
      assert (a - -1 <> 0) by lra. nra. }
  destruct (div_coord 2 _ g1 1 (-1) ltac:(lia) Hg1) as (g2 & Hg2 & E2).
  { intros x Hx H0. destruct x as [|a [|b [|]]]; try discriminate. cbn in H0. subst b. exact (Z1 [a] eq_refl). }
  assert (Z2 : forall x, length x = 1%nat -> g2 [1 + nth 0 x 0; - (1 + nth 0 x 0)] = 0).
  { apply (poly_zero_pos 1 (S n) (fun x => g2 [1 + nth 0 x 0; - (1 + nth 0 x 0)])).
    - apply is_poly_ext with (fun x => g2 [1 + nth 0 x 0; -1 + -1 * nth 0 x 0]); [intros; do 2 f_equal; f_equal; ring|].
      apply (is_poly_coords 1 2 _ g2 [(fun x => 1 + nth 0 x 0); (fun x => -1 + -1 * nth 0 x 0)]); [reflexivity| |easy]. repeat constructor; aff.
    - intros x Hx Hp. destruct x as [|a [|]]; try discriminate. inversion Hp; subst. cbn [nth]. specialize (E1 [1 + a; - (1 + a)] eq_refl). rewrite H3 in E1.
      specialize (E2 [1 + a; - (1 + a)] eq_refl). cbn [nth] in *. rewrite E2 in E1.
      symmetry in E1. apply Rmult_integral in E1. destruct E1 as [E1|E1]; [lra|]. apply Rmult_integral in E1. destruct E1; lra. }
  destruct (div_sum 2 _ g2 ltac:(lia) Hg2) as (g3 & Hg3 & E3).
  { intros x Hx H0. destruct x as [|a [|b [|]]]; try discriminate. unfold list_sum in H0. cbn in H0. specialize (Z2 [a - 1] eq_refl). cbn [nth] in Z2.
    replace (1 + (a - 1)) with a in Z2 by ring. replace b with (- a) by lra. exact Z2. }
  exists (fun x => -1 * g3 x). split; [now apply is_poly_scal|]. intros x y. rewrite E1, E2, E3 by reflexivity. cbn [nth]. unfold list_sum. cbn [fold_right INR]. ring.
Qed.

(** ** The tetrahedron *)
Lemma tet_vanish n f : is_poly 3 n f -> (forall y z, f [-1; y; z] = 0) -> (forall x z, f [x; -1; z] = 0) -> (forall x y, f [x; y; -1] = 0) ->
  (forall x y, f [x; y; - 1 - x - y] = 0) ->
  exists g, is_poly 3 (n - 4) g /\ ((n < 4)%nat -> forall x, length x = 3%nat -> g x = 0)
    /\ forall x y z, f [x; y; z] = (x + 1) * (y + 1) * (z + 1) * (x + y + z + 1) * g [x; y; z].
Proof.
  (* with an upper bound of the degree that leaves room for the four factors *)
  intros Hf H1 H2 H3 H4.
  destruct (Nat.eq_dec n 0) as [->|N0].
  { destruct (is_poly_const_eq 3 f Hf) as (c & Hc). assert (c = 0) by (rewrite <- (Hc [-1; 0; 0] eq_refl); apply H1). subst c.
    exists (fun _ => 0). split; [apply is_poly_const|]. split; [easy|]. intros. rewrite Hc by reflexivity. ring. }
  destruct n as [|n]; [lia|]. clear N0.
  destruct (div_coord 3 n f 0 (-1) ltac:(lia) Hf) as (g1 & Hg1 & E1).
  { intros x Hx H0. destruct x as [|a [|b [|c [|]]]]; try discriminate. cbn in H0. subst a. apply H1. }
  assert (Z1 : forall x, length x = 2%nat -> g1 [nth 0 x 0; -1; nth 1 x 0] = 0).
  { apply (poly_zero_pos 2 n (fun x => g1 [nth 0 x 0; -1; nth 1 x 0])).
    - apply (is_poly_coords 2 3 _ g1 [(fun x => nth 0 x 0); (fun _ => -1); (fun x => nth 1 x 0)]); [reflexivity| |easy]. repeat constructor; aff.
    - intros x Hx Hp. destruct x as [|a [|b [|]]]; try discriminate. inversion Hp; subst. cbn [nth]. specialize (E1 [a; -1; b] eq_refl). rewrite H2 in E1. cbn [nth] in E1.
      symmetry in E1. apply Rmult_integral in E1. destruct E1; lra. }
  destruct n as [|n].
  { destruct (is_poly_const_eq 3 g1 Hg1) as (c & Hc). assert (c = 0) by (rewrite <- (Hc [0; -1; 0] eq_refl); apply (Z1 [0; 0] eq_refl)). subst c.
    exists (fun _ => 0). split; [apply is_poly_const|]. split; [easy|]. intros. rewrite E1, Hc by reflexivity. ring. }
  destruct (div_coord 3 n g1 1 (-1) ltac:(lia) Hg1) as (g2 & Hg2 & E2).
  { intros x Hx H0. destruct x as [|a [|b [|c [|]]]]; try discriminate. cbn in H0. subst b. exact (Z1 [a; c] eq_refl). }
  assert (Z2 : forall x, length x = 2%nat -> g2 [nth 0 x 0; nth 1 x 0; -1] = 0).
  { apply (poly_zero_pos 2 n (fun x => g2 [nth 0 x 0; nth 1 x 0; -1])).
    - apply (is_poly_coords 2 3 _ g2 [(fun x => nth 0 x 0); (fun x => nth 1 x 0); (fun _ => -1)]); [reflexivity| |easy]. repeat constructor; aff.
    - intros x Hx Hp. destruct x as [|a [|b [|]]]; try discriminate. inversion Hp as [|? ? P1 P2]; subst. inversion P2; subst. cbn [nth].
      specialize (E1 [a; b; -1] eq_refl). specialize (E2 [a; b; -1] eq_refl). rewrite H3, E2 in E1. cbn [nth] in E1.
      symmetry in E1. apply Rmult_integral in E1. destruct E1 as [E1|E1]; [lra|]. apply Rmult_integral in E1. destruct E1; lra. }
  destruct n as [|n].
  { destruct (is_poly_const_eq 3 g2 Hg2) as (c & Hc). assert (c = 0) by (rewrite <- (Hc [0; 0; -1] eq_refl); apply (Z2 [0; 0] eq_refl)). subst c.
    exists (fun _ => 0). split; [apply is_poly_const|]. split; [easy|]. intros. rewrite E1, E2, Hc by reflexivity. ring. }
  destruct (div_coord 3 n g2 2 (-1) ltac:(lia) Hg2) as (g3 & Hg3 & E3).
  { intros x Hx H0. destruct x as [|a [|b [|c [|]]]]; try discriminate. cbn in H0. subst c. exact (Z2 [a; b] eq_refl). }
  assert (Z3 : forall x, length x = 2%nat -> g3 [nth 0 x 0; nth 1 x 0; - 1 - nth 0 x 0 - nth 1 x 0] = 0).
  { apply (poly_zero_pos 2 n (fun x => g3 [nth 0 x 0; nth 1 x 0; - 1 - nth 0 x 0 - nth 1 x 0])).
    - apply is_poly_ext with (fun x => g3 [nth 0 x 0; nth 1 x 0; - 1 + -1 * nth 0 x 0 + -1 * nth 1 x 0]); [intros; f_equal; f_equal; f_equal; f_equal; ring|].
      apply (is_poly_coords 2 3 _ g3 [(fun x => nth 0 x 0); (fun x => nth 1 x 0); (fun x => - 1 + -1 * nth 0 x 0 + -1 * nth 1 x 0)]); [reflexivity| |easy]. repeat constructor; aff.
    - intros x Hx Hp. destruct x as [|a [|b [|]]]; try discriminate. inversion Hp as [|? ? P1 P2]; subst. inversion P2; subst. cbn [nth].
      specialize (E1 [a; b; - 1 - a - b] eq_refl). specialize (E2 [a; b; - 1 - a - b] eq_refl). specialize (E3 [a; b; - 1 - a - b] eq_refl). rewrite H4, E2, E3 in E1. cbn [nth] in E1.
      symmetry in E1. apply Rmult_integral in E1. destruct E1 as [E1|E1]; [lra|]. apply Rmult_integral in E1. destruct E1 as [E1|E1]; [lra|].
      apply Rmult_integral in E1. destruct E1; lra. }
  destruct n as [|n].
  { destruct (is_poly_const_eq 3 g3 Hg3) as (c & Hc). assert (c = 0) by (rewrite <- (Hc [0; 0; - 1 - 0 - 0] eq_refl); apply (Z3 [0; 0] eq_refl)). subst c.
    exists (fun _ => 0). split; [apply is_poly_const|]. split; [easy|]. intros. rewrite E1, E2, E3, Hc by reflexivity. ring. }
  destruct (div_sum 3 n g3 ltac:(lia) Hg3) as (g4 & Hg4 & E4).
  { intros x Hx H0. destruct x as [|a [|b [|c [|]]]]; try discriminate. unfold list_sum in H0. cbn in H0. specialize (Z3 [a; b] eq_refl). cbn [nth] in Z3.
    replace c with (- 1 - a - b) by lra. exact Z3. }
  exists (fun x => -1 * g4 x). split; [apply is_poly_scal; now replace (S (S (S (S n))) - 4)%nat with n by lia|]. split; [lia|].
  intros x y z. rewrite E1, E2, E3, E4 by reflexivity. cbn [nth]. unfold list_sum. cbn [fold_right INR]. ring.
Qed.
