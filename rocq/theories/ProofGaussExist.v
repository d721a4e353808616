(** * Roots of orthogonal polynomials and existence of the eigendecomposition *)
From Coquelicot Require Import Coquelicot.
From Coq Require Import List Arith Bool Reals Lra Lia.
From Verif Require Import RSum ProofPoly1 ProofGauss.
Import ListNotations.
Local Open Scope R_scope.

Lemma finite_choice (P : nat -> R -> Prop) n : (forall j, (j < n)%nat -> exists z, P j z) -> exists f, forall j, (j < n)%nat -> P j (f j).
Proof.
  induction n as [|n IH]; intros H; [exists (fun _ => 0); intros; lia|].
  destruct IH as (f & F); [auto|]. destruct (H n ltac:(lia)) as (z & Z). exists (fun j => if (j =? n)%nat then z else f j).
  intros j Hj. destruct (Nat.eqb_spec j n) as [->|]; [easy|]. apply F. lia.
Qed.
Lemma ivt_sign f a b : (forall x, continuous f x) -> a < b -> f a * f b < 0 -> exists z, a < z < b /\ f z = 0.
Proof.
  intros C L H.
  assert (CC : continuity f) by (intros x; apply continuity_pt_filterlim, C).
  assert (Z : exists z, a <= z <= b /\ f z = 0).
  { destruct (Rlt_dec (f a) 0).
    - assert (0 < f b) by (clear -r H; nra). destruct (IVT f a b CC L ltac:(lra) ltac:(lra)) as (z & Hz). now exists z.
    - assert (0 < f a) by (clear -n H; destruct (Req_dec (f a) 0) as [E|]; [rewrite E in H; lra|lra]).
      assert (f b < 0) by (clear -H0 H; nra).
      destruct (IVT (fun x => - f x) a b) as (z & Hz & E); [|easy|lra|lra|].
      + intros x. apply (continuity_pt_opp f), CC.
      + exists z. split; [easy|lra]. }
  destruct Z as (z & Hz & E). exists z. split; [|easy]. split.
  - destruct (Req_dec z a); [subst; nra|lra].
  - destruct (Req_dec z b); [subst; nra|lra].
Qed.
Lemma pow_m1_sq k : (-1) ^ k * (-1) ^ k = 1.
Proof. rewrite <- pow_add. replace (k + k)%nat with (2 * k)%nat by lia. apply pow_1_even. Qed.

Section Roots.
  Context (p : nat -> R -> R) (al be : nat -> R) (c0 : R).
  Hypothesis Hal : forall n, 0 < al n.
  Hypothesis Hc0 : c0 <> 0.
  Hypothesis Hp0 : forall x, p 0%nat x = c0.
  Hypothesis Hp1 : forall x, x * p 0%nat x = al 0%nat * p 1%nat x + be 0%nat * p 0%nat x.
  Hypothesis Hrec : forall n x, x * p (S n) x = al (S n) * p (S (S n)) x + be (S n) * p (S n) x + al n * p n x.
  Hypothesis Hend : forall n, 0 < p n 1.
  Hypothesis Hendm : forall n, 0 < (-1) ^ n * p n (-1).

  Lemma p_poly n : poly1 n (p n).
  Proof.
    assert (P : poly1 n (p n) /\ poly1 (S n) (p (S n))); [|easy].
    induction n as [|n [I1 I2]].
    - split; [apply (poly1_ext 0 (fun _ => c0)); [easy|apply poly1_const]|].
      apply (poly1_ext 1 (fun x => c0 / al 0%nat * (x - be 0%nat))).
      + intros x. pose proof (Hal 0). pose proof (Hp1 x) as E. rewrite Hp0 in E.
        apply Rmult_eq_reg_l with (al 0%nat); [|lra]. replace (al 0%nat * p 1%nat x) with (x * c0 - be 0%nat * c0) by lra. field. lra.
      + apply poly1_scal, (poly1_minus 1 (fun x => x)); [apply poly1_x|apply poly1_const].
    - split; [easy|].
      apply (poly1_ext (S (S n)) (fun x => / al (S n) * ((x - be (S n)) * p (S n) x - al n * p n x))).
      + intros x. pose proof (Hal (S n)). pose proof (Hrec n x) as E. apply Rmult_eq_reg_l with (al (S n)); [|lra].
        rewrite <- Rmult_assoc, Rinv_r by lra. lra.
      + apply poly1_scal, poly1_minus.
        * apply (poly1_mult 1 (S n) (fun x => x - be (S n))); [|easy]. apply (poly1_minus 1 (fun x => x)); [apply poly1_x|apply poly1_const].
        * apply poly1_scal. apply (poly1_weaken n); [lia|easy].
  Qed.

  Definition roots_of (n : nat) (y : nat -> R) : Prop :=
    (forall i, (i < n)%nat -> -1 < y i < 1) /\ (forall i j, (i < j < n)%nat -> y i < y j)
    /\ exists k, 0 < k /\ forall x, p n x = k * rprod (fun i => x - y i) n.

  Lemma next_roots n y : roots_of n y -> (forall i, (i < n)%nat -> 0 < (-1) ^ (n - i) * p (S n) (y i)) ->
    exists z, roots_of (S n) z /\ (forall i, (i < S n)%nat -> 0 < (-1) ^ (S n - i) * p (S (S n)) (z i)).
  Proof.
    intros (Y1 & Y2 & k & Hk & YF) SG.
    set (t := fun j => if (j =? 0)%nat then -1 else if (j <=? n)%nat then y (j - 1)%nat else 1).
    assert (T : forall j, (j <= n)%nat -> t j < t (S j)).
    { intros j Hj. unfold t. destruct (Nat.eqb_spec j 0) as [->|].
      - cbn [Nat.eqb]. destruct (Nat.leb_spec 1 n); [apply Y1; lia|lra].
      - cbn [Nat.eqb]. destruct (Nat.leb_spec j n); [|lia]. destruct (Nat.leb_spec (S j) n).
        + apply Y2. lia.
        + apply Y1. lia. }
    assert (SGT : forall j, (j <= S n)%nat -> 0 < (-1) ^ (S n - j) * p (S n) (t j)).
    { intros j Hj. unfold t. destruct (Nat.eqb_spec j 0) as [->|]; [rewrite Nat.sub_0_r; apply Hendm|].
      destruct (Nat.leb_spec j n).
      - specialize (SG (j - 1)%nat ltac:(lia)). replace (S n - j)%nat with (n - (j - 1))%nat by lia. exact SG.
      - replace (S n - j)%nat with 0%nat by lia. cbn [pow]. rewrite Rmult_1_l. apply Hend. }
    destruct (finite_choice (fun j z => t j < z < t (S j) /\ p (S n) z = 0) (S n)) as (z & Z).
    { intros j Hj. apply ivt_sign; [intros x; apply (poly1_cont (S n)), p_poly|apply T; lia|].
      pose proof (SGT j ltac:(lia)) as S1. pose proof (SGT (S j) ltac:(lia)) as S2.
      replace (S n - j)%nat with (S (S n - S j)) in S1 by lia. cbn [pow] in S1.
      pose proof (pow_m1_sq (S n - S j)) as Q. set (e := (-1) ^ (S n - S j)) in *.
      assert (e * p (S n) (t (S j)) * (- e * p (S n) (t j)) > 0) by nra.
      replace (e * p (S n) (t (S j)) * (- e * p (S n) (t j))) with (- (e * e) * (p (S n) (t j) * p (S n) (t (S j)))) in H by ring. rewrite Q in H. lra. }
    assert (ZZ : forall i j, (i < j < S n)%nat -> z i < z j).
    { intros i j [Hij Hj]. destruct (Z i ltac:(lia)) as [[_ Zi] _]. destruct (Z j Hj) as [[Zj _] _].
      assert (M : forall d, (i + d < S n)%nat -> t (S i) <= t (S (i + d))).
      { induction d as [|d IH]; intros Hd; [rewrite Nat.add_0_r; lra|].
        replace (S (i + S d)) with (S (S (i + d))) by lia. pose proof (T (S (i + d)) ltac:(lia)). specialize (IH ltac:(lia)). lra. }
      specialize (M (j - S i)%nat ltac:(lia)). replace (S (i + (j - S i)))%nat with j in M by lia. lra. }
    assert (Zin : forall i, (i < S n)%nat -> -1 < z i < 1).
    { intros i Hi. destruct (Z i Hi) as [[Z1 Z2] _].
      assert (B : forall j, (j <= S n)%nat -> -1 <= t j <= 1).
      { intros j Hj. unfold t. destruct (Nat.eqb_spec j 0); [lra|]. destruct (Nat.leb_spec j n); [|lra]. pose proof (Y1 (j - 1)%nat ltac:(lia)). lra. }
      pose proof (B i ltac:(lia)). pose proof (B (S i) ltac:(lia)). lra. }
    destruct (poly1_factor (S n) (p (S n)) z (p_poly (S n))) as (k' & K').
    { intros i j Hij. pose proof (ZZ i j Hij). lra. }
    { intros i Hi. apply Z, Hi. }
    exists z. split.
    - split; [easy|]. split; [easy|]. exists k'. split; [|easy].
      pose proof (Hend (S n)) as E1. rewrite K' in E1.
      assert (0 < rprod (fun i => 1 - z i) (S n)) by (apply rprod_pos; intros i Hi; pose proof (Zin i Hi); lra). nra.
    - intros j Hj. destruct (Z j Hj) as [[Z1 Z2] Z0]. pose proof (Hrec n (z j)) as E. rewrite Z0 in E.
      pose proof (Hal n). pose proof (Hal (S n)).
      assert (SP : 0 < (-1) ^ (n - j) * p n (z j)).
      { rewrite YF. assert (0 < (-1) ^ (n - j) * rprod (fun i => z j - y i) n); [|nra].
        assert (TY : forall i, (i < n)%nat -> y i = t (S i)).
        { intros i Hi. unfold t. cbn [Nat.eqb]. destruct (Nat.leb_spec (S i) n); [|lia]. f_equal. lia. }
        assert (M : forall i d, (i + d <= S n)%nat -> t i <= t (i + d)%nat).
        { intros i. induction d as [|d IH]; intros Hd; [rewrite Nat.add_0_r; lra|].
          replace (i + S d)%nat with (S (i + d)) by lia. pose proof (T (i + d)%nat ltac:(lia)). specialize (IH ltac:(lia)). lra. }
        apply rprod_sign; [lia| |].
        - intros i Hi. rewrite TY by lia. specialize (M (S i) (j - S i)%nat ltac:(lia)). replace (S i + (j - S i))%nat with j in M by lia. lra.
        - intros i Hi. rewrite TY by lia. specialize (M (S j) (i - j)%nat ltac:(lia)). replace (S j + (i - j))%nat with (S i) in M by lia. lra. }
      replace (S n - j)%nat with (S (n - j)) by lia. cbn [pow]. set (e := (-1) ^ (n - j)) in *.
      assert (K : al (S n) * (-1 * e * p (S (S n)) (z j)) = al n * (e * p n (z j))).
      { replace (al (S n) * (-1 * e * p (S (S n)) (z j))) with (- e * (al (S n) * p (S (S n)) (z j))) by ring.
        replace (al (S n) * p (S (S n)) (z j)) with (- (al n * p n (z j))) by lra. ring. }
      assert (0 < al (S n) * (-1 * e * p (S (S n)) (z j))) by (rewrite K; apply Rmult_lt_0_compat; easy). nra.
  Qed.
  Theorem roots_exist n : exists y, roots_of n y.
  Proof.
    assert (P : exists y, roots_of n y /\ (forall i, (i < n)%nat -> 0 < (-1) ^ (n - i) * p (S n) (y i))).
    { induction n as [|n (y & H1 & H2)].
      - exists (fun _ => 0). split; [|intros; lia]. split; [intros; lia|]. split; [intros; lia|]. exists c0. split; [rewrite <- (Hp0 1); apply Hend|].
        intros x. rewrite Hp0. cbn [rprod]. ring.
      - now apply (next_roots n y). }
    destruct P as (y & H & _). now exists y.
  Qed.

  Lemma darboux N x y : (x - y) * rsum (fun n => p n x * p n y) (S N) = al N * (p (S N) x * p N y - p N x * p (S N) y).
  Proof.
    induction N as [|N IH].
    - cbn [rsum]. pose proof (Hp1 x). pose proof (Hp1 y).
      replace ((x - y) * (0 + p 0%nat x * p 0%nat y)) with ((x * p 0%nat x) * p 0%nat y - p 0%nat x * (y * p 0%nat y)) by ring. rewrite H, H0. ring.
    - rewrite rsum_S, Rmult_plus_distr_l, IH.
      replace ((x - y) * (p (S N) x * p (S N) y)) with ((x * p (S N) x) * p (S N) y - p (S N) x * (y * p (S N) y)) by ring.
      rewrite !Hrec. ring.
  Qed.
  Lemma christoffel_pos N x : 0 < rsum (fun n => p n x * p n x) (S N).
  Proof.
    rewrite rsum_shift, Hp0. assert (0 <= rsum (fun k => p (S k) x * p (S k) x) N) by (apply rsum_nonneg; intros; nra).
    assert (0 < c0 * c0) by nra. lra.
  Qed.
  (** The eigendecomposition built from the roots. *)
  Definition root_vecs (N : nat) (y : nat -> R) (n i : nat) : R := p n (y i) / sqrt (rsum (fun n => p n (y i) * p n (y i)) (S N)).
  Lemma eigdec_roots N y : (forall i, (i < S N)%nat -> p (S N) (y i) = 0) ->
    (forall i j, (i < j < S N)%nat -> y i <> y j) -> eigdec (S N) (tri al be) y (root_vecs N y).
  Proof.
    intros Y0 Y2. set (S2 := fun i => rsum (fun n => p n (y i) * p n (y i)) (S N)).
    assert (SP : forall i, 0 < S2 i) by (intros i; apply christoffel_pos).
    change (root_vecs N y) with (fun n i => p n (y i) / sqrt (S2 i)).
    assert (SQ : forall i, 0 < sqrt (S2 i)) by (intros i; apply sqrt_lt_R0, SP). split.
    - intros i j Hi Hj. rewrite tri_row by easy. pose proof (SQ j).
      pose proof (p_rec p al be Hp1 Hrec i (y j)) as E.
      transitivity (y j * p i (y j) / sqrt (S2 j)); [|field; lra]. rewrite E. destruct (Nat.ltb_spec i N).
      + destruct i as [|i]; field; lra.
      + assert (i = N) by lia. subst i. rewrite Y0 by easy. destruct N as [|M]; field; lra.
    - intros i j Hi Hj. pose proof (SQ i). pose proof (SQ j).
      rewrite (rsum_ext _ (fun n => / (sqrt (S2 i) * sqrt (S2 j)) * (p n (y i) * p n (y j)))) by (intros; field; lra). rewrite rsum_scal.
      destruct (Nat.eqb_spec i j) as [->|].
      + rewrite sqrt_sqrt by (left; apply SP). apply Rinv_l. pose proof (SP j). unfold S2 in *. lra.
      + pose proof (darboux N (y i) (y j)) as D. rewrite !Y0 in D by easy.
        assert (y i <> y j). { destruct (Nat.lt_total i j) as [|[|]]; [apply Y2; lia|easy|intros E; symmetry in E; revert E; apply Y2; lia]. }
        assert (K : (y i - y j) * rsum (fun n => p n (y i) * p n (y j)) (S N) = 0) by lra.
        apply Rmult_integral in K. destruct K as [K|K]; [lra|]. rewrite K. ring.
  Qed.
  Theorem eigdec_exists N : exists lam V, eigdec (S N) (tri al be) lam V /\ forall i j, (i < j < S N)%nat -> lam i < lam j.
  Proof.
    destruct (roots_exist (S N)) as (y & Y1 & Y2 & k & Hk & YF).
    exists y, (root_vecs N y). split; [|easy]. apply eigdec_roots.
    - intros i Hi. rewrite YF. assert (rprod (fun i0 => y i - y i0) (S N) = 0); [|rewrite H; ring].
      clear -Hi. induction (S N) as [|m IH]; [lia|]. cbn [rprod]. destruct (Nat.eq_dec i m) as [->|]; [ring|]. rewrite IH by lia. ring.
    - intros i j Hij. pose proof (Y2 i j Hij). lra.
  Qed.
  Theorem nodes_inside N lam V : eigdec (S N) (tri al be) lam V -> forall i, (i < S N)%nat -> -1 < lam i < 1.
  Proof.
    intros HE i Hi. pose proof (node_root p al be c0 Hal Hc0 Hp0 Hp1 Hrec N lam V HE i Hi) as R0.
    destruct (roots_exist (S N)) as (y & Y1 & Y2 & k & Hk & YF). rewrite YF in R0. apply Rmult_integral in R0. destruct R0 as [|R0]; [lra|].
    apply rprod_zero in R0. destruct R0 as (j & Hj & E). assert (lam i = y j) by lra. rewrite H. now apply Y1.
  Qed.
End Roots.
