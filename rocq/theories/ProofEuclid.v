(** * The fraction helpers of the Grundmann-Moeller rule *)
From Coq Require Import List Arith Bool ZArith Znumtheory Lia.
From Verif Require Import Py ModelGM.
Import ListNotations.
Local Open Scope Z_scope.

Lemma euclid_loop_ok q0 r0 : forall fuel q r Q R, (Z.abs_nat r <= fuel)%nat ->
  q = fst Q * q0 + snd Q * r0 -> r = fst R * q0 + snd R * r0 -> Z.gcd q r = Z.gcd q0 r0 ->
  exists p a b, euclid_loop fuel q r Q R = Ok (p, a, b) /\ p = a * q0 + b * r0 /\ Z.abs p = Z.gcd q0 r0
    /\ (r <> 0 -> 0 < p * r) /\ (r = 0 -> p = q).
Proof.
  induction fuel as [|fuel IH]; intros q r Q R Hf Hq Hr Hg; cbn [euclid_loop].
  - assert (r = 0) by lia. subst r. rewrite H. cbn [Z.eqb]. eexists _, _, _. split; [reflexivity|].
    split; [easy|]. split; [rewrite <- Hg, H, Z.gcd_0_r; reflexivity|]. split; [congruence|reflexivity].
  - destruct (Z.eqb_spec r 0) as [E|E].
    + eexists _, _, _. split; [reflexivity|]. split; [easy|]. split; [rewrite <- Hg, E, Z.gcd_0_r; reflexivity|].
      split; [congruence|reflexivity].
    + pose proof (Z.mod_bound_or q r E) as HB. pose proof (Z.div_mod q r E) as HD.
      destruct (IH r (q mod r) R (fst Q - q / r * fst R, snd Q - q / r * snd R)) as (p & a & b & H1 & H2 & H3 & H4 & H5).
      * lia.
      * easy.
      * cbn [fst snd]. rewrite Z.mod_eq by easy. set (k := q / r). clearbody k. clear HB HD. rewrite Hq, Hr. ring.
      * rewrite <- Hg. rewrite Z.gcd_comm, Z.gcd_mod by easy. apply Z.gcd_comm.
      * exists p, a, b. split; [easy|]. split; [easy|]. split; [easy|]. split; [|congruence].
        intros _. destruct (Z.eq_dec (q mod r) 0) as [Em|Em]; [rewrite (H5 Em); nia|].
        specialize (H4 Em). nia.
Qed.

(** The sign of the result: that of the smaller argument, if it is not zero. *)
Definition lead (q r : Z) : Z :=
  if Z.abs q <? Z.abs r then (if q =? 0 then r else q) else (if r =? 0 then q else r).
Lemma extended_euclidean_ok q r : exists p a b, extended_euclidean q r = Ok (p, a, b)
  /\ p = a * q + b * r /\ Z.abs p = Z.gcd q r /\ ((q, r) <> (0, 0) -> 0 < p * lead q r).
Proof.
  assert (B : forall q r, exists p a b, euclid_body q r = Ok (p, a, b) /\ p = a * q + b * r /\ Z.abs p = Z.gcd q r
     /\ (r <> 0 -> 0 < p * r) /\ (r = 0 -> p = q)).
  { intros u v. unfold euclid_body. apply euclid_loop_ok; cbn [fst snd]; try lia. }
  unfold extended_euclidean, lead. destruct (Z.ltb_spec (Z.abs q) (Z.abs r)) as [H|H].
  - destruct (B r q) as (p & a & b & -> & H1 & H2 & H3 & H4). cbn [bind]. exists p, b, a. split; [reflexivity|].
    split; [lia|]. split; [now rewrite Z.gcd_comm|]. intros _. destruct (Z.eqb_spec q 0) as [->|Hq].
    + rewrite H4 by easy. nia.
    + now apply H3.
  - destruct (B q r) as (p & a & b & -> & H1 & H2 & H3 & H4). exists p, a, b. split; [reflexivity|].
    split; [lia|]. split; [easy|]. intros Hz. destruct (Z.eqb_spec r 0) as [->|Hr].
    + rewrite H4 by easy. assert (q <> 0) by congruence. nia.
    + now apply H3.
Qed.

Lemma simplify_ok a b : (a, b) <> (0, 0) -> exists g a' b', simplify_fraction (a, b) = Ok (a', b')
  /\ a = g * a' /\ b = g * b' /\ Z.gcd a' b' = 1 /\ 0 < g * lead a b /\ 0 < lead a' b' /\ Z.abs g = Z.gcd a b.
Proof.
  intros Hz. unfold simplify_fraction, gm_gcd. destruct (extended_euclidean_ok a b) as (g & x & y & -> & H1 & H2 & H3).
  cbn [bind fst]. specialize (H3 Hz).
  destruct (Z.eqb_spec g 0) as [->|Hg]; [lia|].
  assert (Da : (g | a)) by (apply (proj1 (Z.divide_abs_l g a)); rewrite H2; apply Z.gcd_divide_l).
  assert (Db : (g | b)) by (apply (proj1 (Z.divide_abs_l g b)); rewrite H2; apply Z.gcd_divide_r).
  destruct Da as (a' & Ea). destruct Db as (b' & Eb).
  assert (Qa : a / g = a') by (subst a; now apply Z.div_mul). assert (Qb : b / g = b') by (subst b; now apply Z.div_mul).
  exists g, a', b'. rewrite Qa, Qb. split; [reflexivity|]. split; [lia|]. split; [lia|].
  assert (GC : Z.gcd a' b' = 1).
  { rewrite Ea, Eb in H2. rewrite Z.gcd_mul_mono_r in H2. pose proof (Z.gcd_nonneg a' b'). nia. }
  split; [easy|]. split; [easy|]. split; [|easy].
  (* lead (g a') (g b') = g * lead a' b' *)
  assert (LE : lead a b = g * lead a' b').
  { subst a b. unfold lead. rewrite !Z.abs_mul.
    destruct (Z.ltb_spec (Z.abs a' * Z.abs g) (Z.abs b' * Z.abs g)), (Z.ltb_spec (Z.abs a') (Z.abs b')); try nia.
    - destruct (Z.eqb_spec (a' * g) 0), (Z.eqb_spec a' 0); nia.
    - destruct (Z.eqb_spec (b' * g) 0), (Z.eqb_spec b' 0); nia. }
  rewrite LE in H3. nia.
Qed.

(** Coprime pairs are proportional only up to sign. *)
Lemma coprime_proportional a b c d : Z.gcd a b = 1 -> Z.gcd c d = 1 -> a * d = c * b ->
  (c = a /\ d = b) \/ (c = - a /\ d = - b).
Proof.
  intros G1 G2 E.
  assert (A1 : (a | c)). { apply Z.gauss with b; [exists d; lia|easy]. }
  assert (A2 : (c | a)). { apply Z.gauss with d; [exists b; lia|easy]. }
  assert (B1 : (b | d)). { apply Z.gauss with a; [exists c; lia|rewrite Z.gcd_comm; easy]. }
  assert (B2 : (d | b)). { apply Z.gauss with c; [exists a; lia|rewrite Z.gcd_comm; easy]. }
  pose proof (Z.divide_antisym_abs _ _ A1 A2) as HA. pose proof (Z.divide_antisym_abs _ _ B1 B2) as HB.
  destruct (Z.eq_dec a 0) as [->|Ha].
  { assert (c = 0) by lia. subst c. lia. }
  destruct (Z.eq_dec b 0) as [->|Hb]; [lia|]. nia.
Qed.
Lemma lead_opp a b : lead (- a) (- b) = - lead a b.
Proof.
  unfold lead. rewrite !Z.abs_opp. destruct (Z.abs a <? Z.abs b).
  - destruct (Z.eqb_spec (- a) 0), (Z.eqb_spec a 0); lia.
  - destruct (Z.eqb_spec (- b) 0), (Z.eqb_spec b 0); lia.
Qed.
Lemma simplify_canonical a b c d : (a, b) <> (0, 0) -> (c, d) <> (0, 0) ->
  (simplify_fraction (a, b) = simplify_fraction (c, d) <-> a * d = c * b).
Proof.
  intros H1 H2. destruct (simplify_ok a b H1) as (g & a' & b' & -> & Ea & Eb & G & _ & L & Hg).
  destruct (simplify_ok c d H2) as (h & c' & d' & -> & Ec & Ed & G' & _ & L' & Hh). split.
  - intros E. injection E as <- <-. subst. ring.
  - intros E. assert (E' : a' * d' = c' * b').
    { assert (Hg0 : g <> 0) by (intros ->; apply H1; f_equal; lia). assert (Hh0 : h <> 0) by (intros ->; apply H2; f_equal; lia).
      apply (Z.mul_reg_l _ _ (g * h)); [nia|]. subst. lia. }
    destruct (coprime_proportional a' b' c' d' G G' E') as [[-> ->]|[-> ->]]; [reflexivity|].
    rewrite lead_opp in L'. lia.
Qed.
