(** * Elliptic integral of the first kind and Jacobi elliptic functions

    Mathematical definitions against which scipy's [ellipk] and [ellipj] are specified;
    0 <= m < 1 is the parameter (not the modulus). *)
From Coquelicot Require Import Coquelicot.
From Coq Require Import List Arith Bool Reals Ranalysis5 Lra Lia.
From Verif Require Import ProofTransplanted.
Local Open Scope R_scope.

(** The integrand and the incomplete integral. *)
Definition ell (m t : R) : R := / sqrt (1 - m * sin t ^ 2).
Definition Fell (m phi : R) : R := RInt (ell m) 0 phi.
(** The complete integral K(m). *)
Definition Kell (m : R) : R := Fell m (PI / 2).
(** [am] is Jacobi's amplitude: the inverse of the incomplete integral. *)
Definition is_amplitude (m : R) (am : R -> R) : Prop := forall u, Fell m (am u) = u.
(** scipy.special.ellipk and ellipj (without the fourth output) at the parameter m. *)
Definition elliptic_at (ellipk : R -> R) (ellipj : R -> R -> R * R * R) (m : R) : Prop :=
  ellipk m = Kell m
  /\ exists am, is_amplitude m am /\ forall u, ellipj u m = (sin (am u), cos (am u), sqrt (1 - m * sin (am u) ^ 2)).

Section Ell.
  Context (m : R) (Hm : 0 <= m < 1).
  Lemma sin2_le t : 0 <= sin t ^ 2 <= 1.
  Proof. pose proof (SIN_bound t). cbn [pow]. nra. Qed.
  Lemma rad_pos t : 0 < 1 - m * sin t ^ 2 <= 1.
  Proof. pose proof (sin2_le t). nra. Qed.
  Lemma sqrt_rad t : 0 < sqrt (1 - m * sin t ^ 2) <= 1.
  Proof. pose proof (rad_pos t). split; [apply sqrt_lt_R0; lra|]. rewrite <- sqrt_1 at 2. apply sqrt_le_1; lra. Qed.
  Lemma ell_ge1 t : 1 <= ell m t.
  Proof. unfold ell. pose proof (sqrt_rad t). rewrite <- Rinv_1 at 1. apply Rinv_le_contravar; lra. Qed.
  Lemma ell_cont t : continuous (ell m) t.
  Proof.
    apply (@ex_derive_continuous _ R_NormedModule). unfold ell. pose proof (rad_pos t). pose proof (sqrt_rad t). auto_derive. cbn [pow] in *. rewrite ?Rmult_1_r in *.
    replace (1 + - (m * (sin t * sin t))) with (1 - m * (sin t * sin t)) by ring. split; [lra|]. split; [|easy]. lra.
  Qed.
  Lemma Fell_derive x : is_derive (Fell m) x (ell m x).
  Proof.
    unfold Fell. apply (@is_derive_RInt R_NormedModule (ell m) (RInt (ell m) 0) 0 x).
    - exists (mkposreal 1 Rlt_0_1). intros y _. apply (@RInt_correct R_CompleteNormedModule). apply (@ex_RInt_continuous R_CompleteNormedModule). intros z _. apply ell_cont.
    - apply ell_cont.
  Qed.
  Lemma Fell_0 : Fell m 0 = 0.
  Proof. unfold Fell. apply (@RInt_point R_CompleteNormedModule). Qed.
  Lemma Fell_grow x y : x <= y -> y - x <= Fell m y - Fell m x.
  Proof.
    intros H. destruct (Req_dec x y) as [->|N]; [lra|]. destruct (MVT_gen (Fell m) x y (ell m)) as (c & Hc & E).
    - intros z _. apply Fell_derive.
    - intros z _. apply continuity_pt_filterlim. apply (@ex_derive_continuous _ R_NormedModule). exists (ell m z). apply Fell_derive.
    - rewrite E. pose proof (ell_ge1 c). nra.
  Qed.
  Lemma Fell_incr x y : x < y -> Fell m x < Fell m y.
  Proof. intros H. pose proof (Fell_grow x y ltac:(lra)). lra. Qed.
  Lemma Fell_inj x y : Fell m x = Fell m y -> x = y.
  Proof. intros E. destruct (Rtotal_order x y) as [H|[H|H]]; [|easy|]; apply Fell_incr in H; lra. Qed.
  Lemma Fell_odd x : Fell m (- x) = - Fell m x.
  Proof.
    assert (D : forall y, is_derive (fun z => Fell m (- z) + Fell m z) y 0).
    { intros y. replace 0 with (-1 * ell m (- y) + ell m y). 2:{ unfold ell. rewrite sin_neg. replace ((- sin y) ^ 2) with (sin y ^ 2) by ring. ring. }
      apply (@is_derive_plus _ R_NormedModule (fun z => Fell m (- z)) (Fell m)); [|apply Fell_derive].
      apply (is_derive_comp (Fell m) (fun z => - z) y (ell m (- y)) (-1)); [apply Fell_derive|]. auto_derive; [easy|ring]. }
    destruct (MVT_gen (fun z => Fell m (- z) + Fell m z) 0 x (fun _ => 0)) as (c & _ & E).
    - intros z _. apply D.
    - intros z _. apply continuity_pt_filterlim. apply (@ex_derive_continuous _ R_NormedModule (fun z0 => Fell m (- z0) + Fell m z0)). exists 0. apply D.
    - rewrite Ropp_0, Fell_0 in E. lra.
  Qed.
  (** The amplitude exists. *)
  Lemma Fell_onto u : { x | Fell m x = u }.
  Proof.
    set (b := Rabs u + 1). assert (B : 0 < b) by (unfold b; pose proof (Rabs_pos u); lra).
    assert (Hb : Fell m (- b) <= u <= Fell m b).
    { pose proof (Fell_grow 0 b ltac:(lra)) as H1. pose proof (Fell_grow (- b) 0 ltac:(lra)) as H2. rewrite Fell_0 in *. unfold b in *. pose proof (Rle_abs u). pose proof (Rle_abs (- u)). rewrite Rabs_Ropp in *. lra. }
    destruct (IVT_cor (fun x => Fell m x - u) (- b) b) as (x & Hx & E).
    - intros z. apply continuity_pt_minus; [|apply continuity_pt_const; now intros ? ?]. apply continuity_pt_filterlim. apply (@ex_derive_continuous _ R_NormedModule). exists (ell m z). apply Fell_derive.
    - lra.
    - nra.
    - exists x. lra.
  Qed.
  Lemma amplitude_exists : exists am, is_amplitude m am.
  Proof. exists (fun u => proj1_sig (Fell_onto u)). intros u. exact (proj2_sig (Fell_onto u)). Qed.

  Section Am.
    Context (am : R -> R) (A : is_amplitude m am).
    Lemma am_odd u : am (- u) = - am u.
    Proof. apply Fell_inj. now rewrite Fell_odd, !A. Qed.
    Lemma am_lip u v : Rabs (am u - am v) <= Rabs (u - v).
    Proof.
      rewrite <- (A u) at 2. rewrite <- (A v) at 2. destruct (Rle_dec (am v) (am u)) as [H|H].
      - pose proof (Fell_grow _ _ H). rewrite !Rabs_right by lra. easy.
      - pose proof (Fell_grow (am u) (am v) ltac:(lra)). rewrite !Rabs_left1 by lra. lra.
    Qed.
    Lemma am_cont u : continuity_pt am u.
    Proof.
      intros e He. exists e. split; [exact He|]. intros x [_ Hx]. cbn in *. unfold R_dist in *. pose proof (am_lip x u). lra.
    Qed.
    Lemma am_incr u v : u < v -> am u < am v.
    Proof.
      intros H. destruct (Rlt_dec (am u) (am v)) as [|N]; [easy|exfalso]. pose proof (Fell_grow (am v) (am u) ltac:(lra)). rewrite !A in *. lra.
    Qed.
    Lemma am_derive u : is_derive am u (sqrt (1 - m * sin (am u) ^ 2)).
    Proof.
      apply is_derive_Reals.
      assert (Prf : forall a, am (u - 1) <= a <= am (u + 1) -> derivable_pt (Fell m) a).
      { intros a _. exists (ell m a). apply is_derive_Reals. apply Fell_derive. }
      assert (Pi : am (u - 1) <= am u <= am (u + 1)) by (split; left; apply am_incr; lra).
      assert (DV : derive_pt (Fell m) (am u) (Prf (am u) Pi) = ell m (am u)).
      { apply derive_pt_eq_0. apply is_derive_Reals. apply Fell_derive. }
      pose proof (sqrt_rad (am u)) as Q.
      replace (sqrt (1 - m * sin (am u) ^ 2)) with (1 / derive_pt (Fell m) (am u) (Prf (am u) Pi)).
      2:{ rewrite DV. unfold ell. field. lra. }
      apply (derivable_pt_lim_recip_interv (Fell m) am (u - 1) (u + 1) u Prf (am_cont u)); [lra|lra|..].
      - intros x _. unfold comp, id. apply A.
      - rewrite DV. pose proof (ell_ge1 (am u)). lra.
    Qed.
    Lemma am_K : am (Kell m) = PI / 2.
    Proof. apply Fell_inj. rewrite A. reflexivity. Qed.
    Lemma Kell_pos : 0 < Kell m.
    Proof. unfold Kell. rewrite <- Fell_0. apply Fell_incr. pose proof PI_RGT_0. lra. Qed.
    Lemma am_half u : - Kell m < u < Kell m -> - (PI / 2) < am u < PI / 2.
    Proof. intros [H1 H2]. apply am_incr in H1, H2. rewrite am_odd, am_K in H1. rewrite am_K in H2. lra. Qed.
    (** sn' = cn dn *)
    Lemma sn_derive u : is_derive (fun v => sin (am v)) u (cos (am u) * sqrt (1 - m * sin (am u) ^ 2)).
    Proof.
      rewrite Rmult_comm. apply (is_derive_comp sin am u (cos (am u))); [apply is_derive_sin|apply am_derive].
    Qed.
  End Am.
End Ell.
