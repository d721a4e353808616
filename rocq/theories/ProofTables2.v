(** * Fixed-point coordinates of tabulated points, and soundness of the table check *)
From Coquelicot Require Import Coquelicot.
From Coq Require Import List Arith Bool ZArith Reals Lra Lia Uint63 Factorial.
From Verif Require Import Py ModelShapes ModelQuad ModelTables.
From Verif Require Import RSum EnumFacts SpecIndex SpecGeometry SpecPoly SpecIntegral ProofDirichlet ProofQuad PropsQuad PropsTools ProofFixed ProofFixed2 ProofTables.
Import ListNotations.
Local Open Scope R_scope.

(** An affine function c_0 + c_1 p_1 + ... of the numerators, and of the reals. *)
Fixpoint dotZ (c p : list Z) : Z := match c, p with a :: c', b :: p' => (a * b + dotZ c' p')%Z | _, _ => 0%Z end.
Fixpoint dot (c p : list R) : R := match c, p with a :: c', b :: p' => a * b + dot c' p' | _, _ => 0 end.
Definition aff (c : Z * list Z) (p : list Z) : Z := (fst c + dotZ (snd c) p)%Z.
Definition raff (c : R * list R) (p : list R) : R := fst c + dot (snd c) p.
Definition maxv (sh : Z) : Z := (2 ^ (63 + sh))%Z.
Lemma maxv_wB sh : (0 <= sh)%Z -> maxv sh = (wB * 2 ^ sh)%Z.
Proof. intros H. unfold maxv. rewrite Z.pow_add_r by lia. reflexivity. Qed.
Definition tofx (sh : Z) (v : Z) : int := of_Z (Z.min (Z.shiftr v sh) (wB - 1)).

(** Coefficients rounded to the unit 2^-(63 + sh), numerators over 10^k. *)
Definition near_coef (sh : Z) (c a : R) : Prop := Rabs (c / IZR (maxv sh) - a) <= 1 / IZR (maxv sh).
Definition near (sh : Z) (k : nat) (c : Z * list Z) (a : R * list R) : Prop :=
  near_coef sh (IZR (fst c)) (fst a) /\ Forall2 (fun C A => near_coef sh (IZR C) (A / 10 ^ k)) (snd c) (snd a).

Section Affine.
  Context (sh : Z) (k : nat).
  Hypothesis sh_pos : (0 <= sh)%Z.
  Lemma maxv_pos : 0 < IZR (maxv sh).
  Proof. apply IZR_lt. unfold maxv. apply Z.pow_pos_nonneg; lia. Qed.
  Lemma dot_near Nmax c a p : Forall2 (fun C A => near_coef sh (IZR C) (A / 10 ^ k)) c a -> length p = length c ->
    Forall (fun z => (Z.abs z <= Nmax)%Z) p ->
    Rabs (IZR (dotZ c p) / IZR (maxv sh) - dot a (map (dec k) p)) <= INR (length p) * IZR Nmax / IZR (maxv sh).
  Proof.
    pose proof maxv_pos as PM. intros H. revert p. induction H as [|C A c a HC H IH]; intros [|z p] L HN; try discriminate.
    - cbn [dotZ dot map length INR]. replace (0 / IZR (maxv sh) - 0) with 0 by (field; lra). rewrite Rabs_R0. unfold Rdiv. rewrite !Rmult_0_l. lra.
    - inversion HN as [|? ? N1 N2]; subst. cbn [dotZ dot map length]. rewrite plus_IZR, mult_IZR, S_INR.
      assert (P10 : 0 < 10 ^ k) by (apply pow_lt; lra).
      replace ((IZR C * IZR z + IZR (dotZ c p)) / IZR (maxv sh) - (A * dec k z + dot a (map (dec k) p)))
        with ((IZR C / IZR (maxv sh) - A / 10 ^ k) * IZR z + (IZR (dotZ c p) / IZR (maxv sh) - dot a (map (dec k) p))) by (unfold dec; field; lra).
      eapply Rle_trans; [apply Rabs_triang|].
      replace ((INR (length p) + 1) * IZR Nmax / IZR (maxv sh)) with (1 / IZR (maxv sh) * IZR Nmax + INR (length p) * IZR Nmax / IZR (maxv sh)) by (field; lra).
      apply Rplus_le_compat; [|apply IH; [cbn in L; lia|easy]].
      rewrite Rabs_mult. apply Rmult_le_compat; try apply Rabs_pos; [exact HC|]. rewrite <- abs_IZR. now apply IZR_le.
  Qed.
  Lemma aff_near Nmax c a p : near sh k c a -> length p = length (snd c) -> Forall (fun z => (Z.abs z <= Nmax)%Z) p ->
    (1 + Z.of_nat (length p) * Nmax <= 2 ^ sh)%Z ->
    Rabs (IZR (aff c p) / IZR (maxv sh) - raff a (map (dec k) p)) <= 1 / IZR wB.
  Proof.
    intros (H0 & H1) L HN HB. pose proof maxv_pos as PM. pose proof (dot_near Nmax _ _ p H1 L HN) as HD.
    unfold aff, raff. rewrite plus_IZR. replace ((IZR (fst c) + IZR (dotZ (snd c) p)) / IZR (maxv sh) - (fst a + dot (snd a) (map (dec k) p)))
      with ((IZR (fst c) / IZR (maxv sh) - fst a) + (IZR (dotZ (snd c) p) / IZR (maxv sh) - dot (snd a) (map (dec k) p))) by (field; lra).
    eapply Rle_trans; [apply Rabs_triang|]. unfold near_coef in H0.
    eapply Rle_trans; [apply Rplus_le_compat; [exact H0|exact HD]|].
    apply IZR_le in HB. rewrite plus_IZR, mult_IZR, <- INR_IZR_INZ in HB. pose proof wB_pos as PW.
    rewrite (maxv_wB sh sh_pos) in *. rewrite mult_IZR in *. assert (P2 : 0 < IZR (2 ^ sh)) by (apply IZR_lt, Z.pow_pos_nonneg; lia).
    apply Rmult_le_reg_r with (IZR wB * IZR (2 ^ sh)); [nra|].
    replace ((1 / (IZR wB * IZR (2 ^ sh)) + INR (length p) * IZR Nmax / (IZR wB * IZR (2 ^ sh))) * (IZR wB * IZR (2 ^ sh))) with (1 + INR (length p) * IZR Nmax) by (field; lra).
    replace (1 / IZR wB * (IZR wB * IZR (2 ^ sh))) with (IZR (2 ^ sh)) by (field; lra). exact HB.
  Qed.
  Lemma tofx_approx v u : (0 <= v <= maxv sh)%Z -> Rabs (IZR v / IZR (maxv sh) - u) <= 1 / IZR wB -> approx 2 (tofx sh v) u.
  Proof.
    intros Hv Hu. replace (tofx sh v) with (fx (maxv sh) v).
    - apply fx_approx; [|easy|easy]. unfold maxv. apply Z.pow_pos_nonneg; lia.
    - unfold fx, tofx. do 2 f_equal. rewrite Z.shiftr_div_pow2 by easy. rewrite (maxv_wB sh sh_pos), (Z.mul_comm v), Z.div_mul_cancel_l; [reflexivity| |].
      + apply Z.pow_nonzero; lia.
      + discriminate.
  Qed.
End Affine.

(** ** The check of one rule *)
(** [A]: the coefficients of the coordinates (x_i + 1) / 2; [C]: that of the halved and
    normalised weights; [Np], [Nw]: bounds on the numerators. *)
Definition point_ok (sh Np : Z) (d : nat) (p : list Z) (vs : list Z) : bool :=
  (length p =? d)%nat && forallb (fun z => (Z.abs z <=? Np)%Z) p && forallb (fun v => (0 <=? v)%Z && (v <=? maxv sh)%Z) vs.
Definition inside_simplex (sh : Z) (d : nat) (vs : list Z) : bool :=
  forallb (fun v => (2 ^ sh <=? v)%Z) vs && (fold_right Z.add 0%Z vs + Z.of_nat d * 2 ^ sh <=? maxv sh)%Z.
Definition weight_ok (shw Nw C : Z) (w : Z) : bool := (0 <? w)%Z && (w <=? Nw)%Z && (w * C + 2 ^ shw <=? maxv shw)%Z.
Definition check_points (inside : list Z -> bool) (next : int -> int -> int -> int -> int) (tol : int) (n d : nat)
    (sh Np : Z) (A : list (Z * list Z)) (shw Nw C : Z) (pts : list (list Z)) (ws : list Z) : bool :=
  let vs := map (fun p => map (fun c => aff c p) A) pts in
  forallb (fun pv => point_ok sh Np d (fst pv) (snd pv) && inside (snd pv)) (combine pts vs)
  && forallb (weight_ok shw Nw C) ws && (length ws =? length pts)%nat
  && check_rule next tol n (map (fun i => map (fun v => tofx sh (nth i v 0%Z)) vs) (seq 0 (length A))) (map (fun w => tofx shw (w * C)) ws).

Definition unode (k : nat) (a : list (R * list R)) (p : list Z) : list R := map (fun c => raff c (map (dec k) p)) a.
Definition rule_bound (tol : int) (n N : nat) : R := (IZR (to_Z tol) + 2 + INR n) / IZR B56 + 2 * (INR N * (2 + 3 * INR n)) / IZR wB.

Lemma forallb_combine_map {X Y} (f : X -> Y) (P : X * Y -> bool) l : forallb P (combine l (map f l)) = forallb (fun x => P (x, f x)) l.
Proof. induction l as [|x l IH]; cbn [map combine forallb]; [reflexivity|]. now rewrite IH. Qed.
Lemma Forall2_map {X Y Z} (P : Y -> Z -> Prop) (f : X -> Y) (g : X -> Z) l : (forall x, In x l -> P (f x) (g x)) -> Forall2 P (map f l) (map g l).
Proof. induction l as [|x l IH]; intros H; cbn [map]; constructor; [apply H; now left|]. apply IH. intros; apply H; now right. Qed.

Section Sound.
  Context (inside : list Z -> bool) (next : int -> int -> int -> int -> int) (tol : int) (n d : nat).
  Context (sh Np : Z) (A : list (Z * list Z)) (shw Nw C : Z) (pts : list (list Z)) (ws : list Z).
  Context (k kw : nat) (a : list (R * list R)) (c : R) (mom : list nat -> R).
  Hypothesis sh_pos : (0 <= sh)%Z.
  Hypothesis shw_pos : (0 <= shw)%Z.
  Hypothesis Np_small : (1 + Z.of_nat d * Np <= 2 ^ sh)%Z.
  Hypothesis Nw_small : (1 + Nw <= 2 ^ shw)%Z.
  Hypothesis c_pos : 0 < c.
  Hypothesis lenA : length A = d.
  Hypothesis widthA : Forall (fun c => length (snd c) = d) A.
  Hypothesis nearA : Forall2 (near sh k) A a.
  Hypothesis nearC : near_coef shw (IZR C) (c / 10 ^ kw).
  Hypothesis check : check_points inside next tol n d sh Np A shw Nw C pts ws = true.
  Hypothesis mom0 : forall pre, mom (0%nat :: pre) = mom pre.
  Hypothesis mom1 : mom [] = 1.
  Hypothesis next_ok : forall pre k T0 T ki si, goodT mom pre T0 -> goodT mom (k :: pre) T ->
    to_Z ki = Z.of_nat k -> to_Z si = Z.of_nat (total (k :: pre)) -> (total (k :: pre) < 60)%nat -> goodT mom (S k :: pre) (next T0 T ki si).
  Hypothesis inside_ok : forall p, In p pts -> inside (map (fun c => aff c p) A) = true ->
    Forall2 (fun V u => Rabs (IZR V / IZR (maxv sh) - u) <= 1 / IZR wB) (map (fun c => aff c p) A) (unode k a p) -> Forall unitv (unode k a p).

  Lemma lena : length a = d.
  Proof. rewrite <- lenA. symmetry. clear -nearA. induction nearA; cbn [length]; auto. Qed.
  Lemma check_parts :
    Forall (fun p => length p = d /\ Forall (fun z => (Z.abs z <= Np)%Z) p /\ inside (map (fun c => aff c p) A) = true
                     /\ Forall (fun v => (0 <= v <= maxv sh)%Z) (map (fun c => aff c p) A)) pts
    /\ Forall (fun w => (0 < w <= Nw)%Z /\ (w * C + 2 ^ shw <= maxv shw)%Z) ws /\ length ws = length pts
    /\ check_rule next tol n (map (fun i => map (fun p => tofx sh (nth i (map (fun c => aff c p) A) 0%Z)) pts) (seq 0 d)) (map (fun w => tofx shw (w * C)) ws) = true.
  Proof.
    revert check. unfold check_points. cbv zeta. intros H. apply andb_true_iff in H. destruct H as (H & H4).
    apply andb_true_iff in H. destruct H as (H & H3). apply andb_true_iff in H. destruct H as (H1 & H2). rewrite forallb_combine_map in H1.
    split; [|split; [|split]].
    - apply Forall_forall. intros p Hp. rewrite forallb_forall in H1. specialize (H1 p Hp). cbn [fst snd] in H1. unfold point_ok in H1.
      apply andb_true_iff in H1. destruct H1 as (H1 & Hin). apply andb_true_iff in H1. destruct H1 as (H1 & Hv). apply andb_true_iff in H1. destruct H1 as (Hl & Hz).
      apply Nat.eqb_eq in Hl. rewrite forallb_forall in Hz, Hv. split; [easy|]. split; [|split; [easy|]].
      + apply Forall_forall. intros z Iz. apply Z.leb_le. now apply Hz.
      + apply Forall_forall. intros v Iv. apply Hv in Iv. apply andb_true_iff in Iv. rewrite !Z.leb_le in Iv. exact Iv.
    - apply Forall_forall. intros w Hw. rewrite forallb_forall in H2. specialize (H2 w Hw). unfold weight_ok in H2.
      apply andb_true_iff in H2. destruct H2 as (H2 & Hc). apply andb_true_iff in H2. rewrite Z.ltb_lt, Z.leb_le in H2. rewrite Z.leb_le in Hc. tauto.
    - now apply Nat.eqb_eq.
    - rewrite lenA in H4. erewrite map_ext; [exact H4|]. intros i. cbv beta. rewrite map_map. reflexivity.
  Qed.
  Lemma near_point p : In p pts -> Forall2 (fun V u => Rabs (IZR V / IZR (maxv sh) - u) <= 1 / IZR wB) (map (fun c => aff c p) A) (unode k a p).
  Proof.
    intros Hp. destruct check_parts as (H1 & _). rewrite Forall_forall in H1. destruct (H1 p Hp) as (L & HZ & _).
    assert (G : forall A a, Forall2 (near sh k) A a -> Forall (fun c => length (snd c) = d) A ->
      Forall2 (fun V u => Rabs (IZR V / IZR (maxv sh) - u) <= 1 / IZR wB) (map (fun c => aff c p) A) (unode k a p)).
    { induction 1 as [|c0 a0 A' a' HC _ IH]; intros WA; unfold unode; cbn [map]; constructor.
      - apply (aff_near sh k sh_pos Np c0 a0 p HC); [rewrite L; symmetry; exact (Forall_inv WA)|easy|]. now rewrite L.
      - apply IH. exact (Forall_inv_tail WA). }
    now apply G.
  Qed.
  Lemma unode_unit p : In p pts -> Forall unitv (unode k a p).
  Proof.
    intros Hp. apply inside_ok; [easy| |now apply near_point]. destruct check_parts as (H1 & _). rewrite Forall_forall in H1. now destruct (H1 p Hp) as (_ & _ & I & _).
  Qed.

  Definition rrows : list (list R) := map (fun i => map (fun p => nth i (unode k a p) 0) pts) (seq 0 d).
  Definition rws : list R := map (fun w => c * dec kw w) ws.
  Lemma rows_approx : Forall2 (Forall2 (approx 2)) (map (fun i => map (fun p => tofx sh (nth i (map (fun c => aff c p) A) 0%Z)) pts) (seq 0 d)) rrows
    /\ Forall (Forall unitv) rrows /\ Forall (fun r => length r = length rws) rrows /\ Forall2 (approx 2) (map (fun w => tofx shw (w * C)) ws) rws /\ Forall unitv rws.
  Proof.
    destruct check_parts as (H1 & H2 & H3 & _). rewrite Forall_forall in H1, H2. unfold rrows, rws.
    split; [|split; [|split]].
    - apply Forall2_map. intros i Hi. apply in_seq in Hi. apply Forall2_map. intros p Hp. pose proof (near_point p Hp) as HN.
      destruct (H1 p Hp) as (_ & _ & _ & HV). apply tofx_approx; [easy| |].
      + rewrite Forall_forall in HV. apply HV. apply nth_In. rewrite map_length. lia.
      + clear -HN Hi lenA nearA. unfold unode in *. pose proof lena as La. assert (Li : (i < length (map (fun c => aff c p) A))%nat) by (rewrite map_length; lia).
        revert i Hi Li. induction HN as [|V u Vs us HV _ IH]; intros i Hi Li; cbn [length] in Li; [lia|]. destruct i as [|i]; cbn [nth]; [exact HV|]. apply IH; lia.
    - apply Forall_forall. intros r Hr. apply in_map_iff in Hr. destruct Hr as (i & <- & Hi). apply in_seq in Hi. apply Forall_forall. intros x Hx. apply in_map_iff in Hx.
      destruct Hx as (p & <- & Hp). pose proof (unode_unit p Hp) as HU. rewrite Forall_forall in HU. apply HU, nth_In. unfold unode. rewrite map_length, lena. lia.
    - apply Forall_forall. intros r Hr. apply in_map_iff in Hr. destruct Hr as (i & <- & _). rewrite !map_length. congruence.
    - assert (HW : forall w, In w ws -> Rabs (IZR (w * C) / IZR (maxv shw) - c * dec kw w) <= 1 / IZR wB /\ (0 <= w * C <= maxv shw)%Z).
      { intros w Hw. destruct (H2 w Hw) as (Hw1 & Hw2).
        pose proof (aff_near shw kw shw_pos Nw (0%Z, [C]) (0, [c]) [w]) as N. unfold aff, raff in N. cbn [fst snd dotZ dot map length] in N.
        pose proof (maxv_pos shw shw_pos) as PM. assert (P10 : 0 < 10 ^ kw) by (apply pow_lt; lra).
        assert (C0 : (0 <= C)%Z).
        { apply Z.lt_succ_r. apply lt_IZR. unfold near_coef in nearC. apply Rabs_le_between in nearC.
          assert (0 < c / 10 ^ kw) by (apply Rdiv_lt_0_compat; lra). assert (X : 0 < (IZR C + 1) / IZR (maxv shw)).
          { replace ((IZR C + 1) / IZR (maxv shw)) with (IZR C / IZR (maxv shw) + 1 / IZR (maxv shw)) by (field; lra). lra. }
          unfold Z.succ. rewrite plus_IZR. apply Rmult_lt_reg_r with (/ IZR (maxv shw)); [now apply Rinv_0_lt_compat|]. rewrite Rmult_0_l. exact X. }
        assert (P2 : (0 < 2 ^ shw)%Z) by (apply Z.pow_pos_nonneg; lia). split; [|nia]. replace (w * C)%Z with (0 + (C * w + 0))%Z by ring. replace (c * dec kw w) with (0 + (c * dec kw w + 0)) by ring. apply N.
        - split; cbn [fst snd]; [|constructor; [exact nearC|constructor]]. unfold near_coef. replace (0 / IZR (maxv shw) - 0) with 0 by (field; lra). rewrite Rabs_R0.
          unfold Rdiv. rewrite Rmult_1_l. left. now apply Rinv_0_lt_compat.
        - reflexivity.
        - constructor; [|constructor]. lia.
        - lia. }
      split.
      + apply Forall2_map. intros w Hw. destruct (HW w Hw). now apply tofx_approx.
      + apply Forall_forall. intros x Hx. apply in_map_iff in Hx. destruct Hx as (w & <- & Hw). destruct (H2 w Hw) as (Hw1 & Hw2).
        assert (P10 : 0 < 10 ^ kw) by (apply pow_lt; lra). assert (0 < IZR w) by (apply IZR_lt; lia).
        assert (0 < dec kw w) by (unfold dec; now apply Rdiv_lt_0_compat). split; [nra|].
        destruct (HW w Hw) as (HA & _). apply Rabs_le_between in HA. apply IZR_le in Hw2. rewrite plus_IZR in Hw2.
        pose proof (maxv_pos shw shw_pos) as PM. pose proof wB_pos as PW. assert (P2 : 0 < IZR (2 ^ shw)) by (apply IZR_lt, Z.pow_pos_nonneg; lia).
        assert (X : IZR (w * C) / IZR (maxv shw) + 1 / IZR wB <= 1); [|lra].
        set (y := IZR (w * C)) in *. rewrite (maxv_wB shw shw_pos), mult_IZR in Hw2. rewrite (maxv_wB shw shw_pos), mult_IZR.
        apply Rmult_le_reg_r with (IZR wB * IZR (2 ^ shw)); [nra|].
        replace ((y / (IZR wB * IZR (2 ^ shw)) + 1 / IZR wB) * (IZR wB * IZR (2 ^ shw))) with (y + IZR (2 ^ shw)) by (field; lra). lra.
  Qed.

  Lemma sums_close e : length e = d -> (total e <= n)%nat -> Rabs (2 * power_sum rrows rws e - mom (rev e)) <= rule_bound tol n (length ws).
  Proof.
    intros L Le. destruct check_parts as (_ & _ & _ & HC). destruct rows_approx as (R1 & R2 & R3 & R4 & R5).
    pose proof (check_sound mom next tol n _ _ rrows rws mom0 mom1 next_ok HC R1 R2 R4 R5 R3 e) as X.
    unfold rule_bound. replace (length ws) with (length rws) by apply map_length. apply X; [|easy]. unfold rrows. now rewrite map_length, seq_length.
  Qed.

  (** The rule whose nodes have these coordinates. *)
  Context (q : quad) (V : R).
  Hypothesis nodes : q_nodes q = map (fun p => map (fun u => 2 * u - 1) (unode k a p)) pts.
  Hypothesis weights : q_weights q = map (fun w => 2 * V * w) rws.
  Hypothesis dimq : q_dim q = d.
  Hypothesis V_pos : 0 < V.
  Lemma table_wf : wf_quad q.
  Proof.
    destruct check_parts as (_ & _ & L & _). split.
    - rewrite nodes, dimq. apply Forall_forall. intros x Hx. apply in_map_iff in Hx. destruct Hx as (p & <- & _). unfold unode. rewrite !map_length. apply lena.
    - rewrite weights, nodes. unfold rws. rewrite !map_length. exact L.
  Qed.
  Lemma table_weights : Forall (fun w => 0 < w) (q_weights q).
  Proof.
    destruct check_parts as (_ & H & _). rewrite weights. unfold rws. rewrite map_map. apply Forall_forall. intros x Hx. apply in_map_iff in Hx. destruct Hx as (w & <- & Hw).
    rewrite Forall_forall in H. destruct (H w Hw) as (H1 & _). assert (P10 : 0 < 10 ^ kw) by (apply pow_lt; lra).
    assert (0 < dec kw w) by (unfold dec; apply Rdiv_lt_0_compat; [apply IZR_lt; lia|easy]). apply Rmult_lt_0_compat; [lra|]. now apply Rmult_lt_0_compat.
  Qed.
  Lemma table_rule e : length e = d -> rule q (fun x => monoval e (half x)) = V * (2 * power_sum rrows rws e).
  Proof.
    intros L. rewrite (rule_rsum q _ table_wf). destruct check_parts as (_ & _ & LW & _). destruct rows_approx as (_ & _ & R3 & _).
    unfold power_sum. destruct (rprods_spec e rrows rws R3) as (P1 & P2); [unfold rrows; now rewrite map_length, seq_length|].
    assert (LS : forall l, ProofFixed.lsum l = rsum (fun i => nth i l 0) (length l)).
    { induction l as [|x l IH]; [reflexivity|]. cbn [length]. rewrite rsum_shift. cbn [nth]. rewrite <- IH. reflexivity. }
    rewrite LS, P1. rewrite <- !rsum_scal. replace (length (q_nodes q)) with (length rws) by (rewrite nodes; unfold rws; rewrite !map_length; exact LW).
    apply rsum_ext. intros i Hi. rewrite P2 by easy. unfold rws in Hi. rewrite map_length in Hi.
    rewrite weights. rewrite (nth_indep (map (fun w => 2 * V * w) rws) 0 (2 * V * 0)) by (unfold rws; rewrite !map_length; easy). rewrite map_nth.
    rewrite nodes. set (f := fun p => map (fun u => 2 * u - 1) (unode k a p)). rewrite (nth_indep (map f pts) [] (f [])) by (rewrite map_length; lia). rewrite map_nth.
    replace (half (f (nth i pts []))) with (map (fun r => nth i r 0) rrows); [ring|]. unfold f, half, rrows. rewrite !map_map.
    transitivity (unode k a (nth i pts [])); [|symmetry; rewrite <- (map_id (unode k a (nth i pts []))) at 2; apply map_ext; intros; field].
    assert (LU : length (unode k a (nth i pts [])) = d) by (unfold unode; rewrite map_length; apply lena).
    apply nth_ext with 0 0; [rewrite map_length, seq_length; congruence|]. rewrite map_length, seq_length. intros j Hj.
    rewrite (nth_indep _ 0 ((fun i0 => nth i (map (fun p => nth i0 (unode k a p) 0) pts) 0) 0%nat)) by (rewrite map_length, seq_length; easy).
    rewrite (map_nth (fun i0 => nth i (map (fun p => nth i0 (unode k a p) 0) pts) 0)), seq_nth by easy. cbn [Nat.add].
    rewrite (nth_indep _ 0 ((fun p => nth j (unode k a p) 0) [])) by (rewrite map_length; lia). now rewrite (map_nth (fun p => nth j (unode k a p) 0)).
  Qed.
  Lemma table_within s : shape_dim s = d -> (forall e, length e = d -> is_int s (fun x => monoval e (half x)) (V * mom (rev e))) ->
    integrates_within q s n (V * rule_bound tol n (length ws)).
  Proof.
    intros Ds HI. apply (within_of_moments q s n _ (fun e => V * mom (rev e)) table_wf); rewrite Ds; [exact HI|].
    intros e L Le. rewrite table_rule by easy. rewrite <- Rmult_minus_distr_l, Rabs_mult, (Rabs_pos_eq V) by lra.
    apply Rmult_le_compat_l; [lra|]. now apply sums_close.
  Qed.
End Sound.
