(** * Panels of quadgk and assembled Kronrod rules *)
From Coq Require Import List Arith Bool ZArith QArith Reals Lra Lia Permutation.
From Verif Require Import Py RSum EnumFacts ModelNd ModelShapes ModelNodes ModelModes ModelQuad ModelGauss ModelKronrod.
From Verif Require Import ProofMonomial ProofQuad PropsTools.
Import ListNotations.
Local Open Scope R_scope.

Lemma tbind_ok {A B} l (a : A) (k : A -> tr B) l' r : k a = (l', r) -> tbind (l, Ok a) k = (l ++ l', r).
Proof. intros H. unfold tbind. now rewrite H. Qed.
Lemma tfold_total {S A} (f : S -> A -> tr S) (tp : A -> list R) (g : S -> A -> S) l : (forall s a, In a l -> f s a = (tp a, Ok (g s a))) ->
  forall s, tfold f l s = (flat_map tp l, Ok (fold_left g l s)).
Proof.
  induction l as [|a l IH]; intros H s; [reflexivity|]. cbn [tfold flat_map fold_left]. rewrite H by now left.
  apply tbind_ok. apply IH. intros. apply H. now right.
Qed.
Lemma perm4 {A B} (f1 f2 f3 f4 : A -> B) l : Permutation (flat_map (fun i => [f1 i; f2 i; f3 i; f4 i]) l) (map f1 l ++ map f2 l ++ map f3 l ++ map f4 l).
Proof.
  induction l as [|a l IH]; [constructor|]. cbn [flat_map map app]. constructor.
  apply Permutation_cons_app. rewrite app_assoc. apply Permutation_cons_app. rewrite <- app_assoc, !app_assoc. apply Permutation_cons_app.
  rewrite <- !app_assoc. exact IH.
Qed.

(** [l[::2]] *)
Lemma every2_spec : forall k l, (length l <= k)%nat -> every2 l = map (fun i => nth (2 * i) l 0) (seq 0 ((length l + 1) / 2)).
Proof.
  assert (D : forall m, ((S (S m) + 1) / 2 = S ((m + 1) / 2))%nat).
  { intros m. replace (S (S m) + 1)%nat with (m + 1 + 1 * 2)%nat by lia. rewrite Nat.div_add by lia. lia. }
  induction k as [|k IH]; intros l H; [destruct l; [reflexivity|cbn in H; lia]|].
  destruct l as [|x [|y l]]; [reflexivity|reflexivity|]. cbn [every2 length]. rewrite D. cbn [seq map]. f_equal.
  rewrite IH by (cbn in H; lia). rewrite <- seq_shift, map_map. apply map_ext. intros i.
  replace (2 * S i)%nat with (S (S (2 * i))) by lia. reflexivity.
Qed.
Lemma evens_odd p (x : list R) : length x = (2 * p + 2)%nat ->
  every2 x = map (fun i => nth (2 * i) x 0) (seq 0 (S p)) /\ every2 (tl x) = map (fun i => nth (2 * i + 1) x 0) (seq 0 (S p)).
Proof.
  intros L. split; rewrite (every2_spec _ _ (le_n _)).
  - rewrite L. replace ((2 * p + 2 + 1) / 2)%nat with (S p); [reflexivity|]. replace (2 * p + 2 + 1)%nat with (1 + S p * 2)%nat by lia. rewrite Nat.div_add by lia. cbn. lia.
  - destruct x as [|a x]; [cbn in L; lia|]. cbn [tl]. cbn in L.
    replace ((length x + 1) / 2)%nat with (S p); [|replace (length x + 1)%nat with (S p * 2)%nat by lia; now rewrite Nat.div_mul by lia].
    apply map_ext. intros i. now rewrite Nat.add_1_r.
Qed.
Lemma evens_even p (x : list R) : length x = (2 * p + 1)%nat ->
  every2 x = map (fun i => nth (2 * i) x 0) (seq 0 (S p)) /\ every2 (tl x) = map (fun i => nth (2 * i + 1) x 0) (seq 0 p).
Proof.
  intros L. split; rewrite (every2_spec _ _ (le_n _)).
  - rewrite L. replace ((2 * p + 1 + 1) / 2)%nat with (S p); [reflexivity|]. replace (2 * p + 1 + 1)%nat with (S p * 2)%nat by lia. now rewrite Nat.div_mul by lia.
  - destruct x as [|a x]; [cbn in L; lia|]. cbn [tl]. cbn in L.
    replace ((length x + 1) / 2)%nat with p; [|replace (length x + 1)%nat with (1 + p * 2)%nat by lia; now rewrite Nat.div_add by lia].
    apply map_ext. intros i. now rewrite Nat.add_1_r.
Qed.
Lemma list_as_map (l : list R) n : length l = n -> l = map (fun i => nth i l 0) (seq 0 n).
Proof.
  intros L. apply (nth_ext _ _ 0 0); [now rewrite map_length, seq_length|]. intros i Hi. rewrite nth_map_seq by lia. reflexivity.
Qed.
Lemma removelast_map_seq {A} (f : nat -> A) p : removelast (map f (seq 0 (S p))) = map f (seq 0 p).
Proof. rewrite seq_S, map_app. cbn [map]. now rewrite removelast_last. Qed.
Lemma last_map_seq (f : nat -> R) p d : last (map f (seq 0 (S p))) d = f p.
Proof. rewrite seq_S, map_app. cbn [map]. now rewrite last_last. Qed.
Lemma last_nth (l : list R) d : l <> [] -> last l d = nth (length l - 1) l d.
Proof.
  intros H. destruct (exists_last H) as (l' & y & ->). rewrite last_last, app_length, app_nth2 by (cbn; lia). cbn [length].
  replace (length l' + 1 - 1 - length l')%nat with 0%nat by lia. reflexivity.
Qed.
Lemma dotR_comm a b : dotR a b = dotR b a.
Proof.
  unfold dotR. revert b. induction a as [|x a IH]; intros [|y b]; try reflexivity. cbn [combine map fold_right fst snd]. rewrite IH. ring.
Qed.
Lemma concat_const_length {A} m (l : list (list A)) : (forall x, In x l -> length x = m) -> length (concat l) = (m * length l)%nat.
Proof.
  induction l as [|x l IH]; intros H; [cbn; lia|]. cbn [concat length]. rewrite app_length, IH by (intros; apply H; now right). rewrite H by now left. lia.
Qed.

Lemma dotR_app a b c d : length a = length c -> dotR (a ++ b) (c ++ d) = dotR a c + dotR b d.
Proof.
  unfold dotR. revert c. induction a as [|x a IH]; intros [|y c] L; try discriminate; [cbn; ring|].
  cbn [app combine map fold_right]. rewrite IH by (cbn in L; lia). ring.
Qed.
Lemma dotR_map_seq f g st n : dotR (map f (seq st n)) (map g (seq st n)) = rsum (fun i => f (st + i)%nat * g (st + i)%nat) n.
Proof.
  revert st. induction n as [|n IH]; intros st; [reflexivity|]. cbn [seq map]. unfold dotR in *. cbn [combine map fold_right fst snd].
  rewrite IH, rsum_shift, Nat.add_0_r. f_equal. apply rsum_ext. intros i _. now rewrite !Nat.add_succ_r.
Qed.
Lemma dotR_rev a b : length a = length b -> dotR (rev a) (rev b) = dotR a b.
Proof.
  revert b. induction a as [|x a IH]; intros [|y b] L; try discriminate; [reflexivity|]. cbn [rev].
  rewrite dotR_app by (rewrite !rev_length; cbn in L; lia). rewrite IH by (cbn in L; lia). unfold dotR. cbn [combine map fold_right fst snd]. ring.
Qed.
(** A function summed over nodes and mirrored nodes. *)
Lemma dotR_mirror (F : R -> R) (xs ws : nat -> R) p :
  dotR (map F (map xs (seq 0 p) ++ map Ropp (rev (map xs (seq 0 p))))) (map ws (seq 0 p) ++ rev (map ws (seq 0 p)))
  = rsum (fun i => ws i * (F (xs i) + F (- xs i))) p.
Proof.
  rewrite map_app, dotR_app by now rewrite !map_length. rewrite (map_rev Ropp), (map_rev F), dotR_rev by now rewrite !map_length.
  rewrite !map_map, !dotR_map_seq, <- rsum_plus. apply rsum_ext. intros i _. cbn [Nat.add]. ring.
Qed.
Lemma dotR_mirror0 (F : R -> R) (xs ws : nat -> R) x0 w0 p :
  dotR (map F (map xs (seq 0 p) ++ [x0] ++ map Ropp (rev (map xs (seq 0 p))))) (map ws (seq 0 p) ++ [w0] ++ rev (map ws (seq 0 p)))
  = rsum (fun i => ws i * (F (xs i) + F (- xs i))) p + w0 * F x0.
Proof.
  rewrite !map_app, !dotR_app by now rewrite !map_length. rewrite (map_rev Ropp), (map_rev F), dotR_rev by now rewrite !map_length.
  rewrite !map_map, !dotR_map_seq. unfold dotR at 1. cbn [map combine fold_right fst snd]. 
  rewrite (rsum_ext (fun i => ws i * (F (xs i) + F (- xs i))) (fun i => F (xs i) * ws i + F (- xs i) * ws i)) by (intros; ring).
  rewrite rsum_plus. cbn [Nat.add]. ring.
Qed.
Lemma mapM_total {A B} (f : A -> B) l : mapM (fun x => Ok (f x)) l = Ok (map f l).
Proof. apply (mapM_Ok _ f). reflexivity. Qed.

Section Panel.
  Context (phi : R -> R) (a b : R) (x w gw : list R) (n : nat).
  Hypothesis Hn : (1 <= n)%nat.
  Hypothesis Lx : length x = (n + 1)%nat.
  Hypothesis Lw : length w = (n + 1)%nat.
  Hypothesis Lg : length gw = ((n + 1) / 2)%nat.
  Let s := 1 / 2 * (b - a).
  Let f := feval (fun y => Ok (phi y)).
  Let F := fun y => phi (a + (1 + y) * s).
  Let P := fun y => a + (1 + y) * s.
  Let k := assemble_kronrod n (x, w, gw).
  Let xg := fun i => nth (2 * i + 1) x 0.
  Let xk := fun i => nth (2 * i) x 0.
  Let wg := fun i => nth (2 * i + 1) w 0.
  Let wk := fun i => nth (2 * i) w 0.
  Let gi := fun i => nth i gw 0.

  Lemma panel_loop p : tfold (evalrule_step f a s x w gw) (seq 1 p) (0, 0)
    = (flat_map (fun i => [P (xg i); P (- xg i); P (xk i); P (- xk i)]) (seq 0 p),
       Ok (rsum (fun i => wg i * (F (xg i) + F (- xg i)) + wk i * (F (xk i) + F (- xk i))) p,
           rsum (fun i => gi i * (F (xg i) + F (- xg i))) p)).
  Proof.
    rewrite (tfold_total _ (fun i => [P (xg (i - 1)%nat); P (- xg (i - 1)%nat); P (xk (i - 1)%nat); P (- xk (i - 1)%nat)])
       (fun st i => (fst st + (wg (i - 1)%nat * (F (xg (i - 1)%nat) + F (- xg (i - 1)%nat)) + wk (i - 1)%nat * (F (xk (i - 1)%nat) + F (- xk (i - 1)%nat))),
                     snd st + gi (i - 1)%nat * (F (xg (i - 1)%nat) + F (- xg (i - 1)%nat))))).
    - f_equal.
      + rewrite !flat_map_concat_map. f_equal. rewrite <- seq_shift, map_map. apply map_ext. intros i. now rewrite Nat.sub_succ, Nat.sub_0_r.
      + f_equal. induction p as [|p IH]; [reflexivity|]. rewrite seq_S, fold_left_app, IH. cbn [fold_left fst snd rsum].
        replace (1 + p - 1)%nat with p by lia. reflexivity.
    - intros [ik ig] i Hi. apply in_seq in Hi. unfold evalrule_step, f, feval.
      assert (E1 : (2 * i - 1 = 2 * (i - 1) + 1)%nat) by lia. assert (E2 : (2 * i - 2 = 2 * (i - 1))%nat) by lia. rewrite E1, E2.
      unfold tbind. cbn [tret app fst snd]. apply (f_equal2 pair); [reflexivity|]. apply f_equal. apply (f_equal2 pair).
      + unfold F, xg, xk, wg, wk, gi, Rminus. ring.
      + unfold F, xg, xk, wg, wk, gi, Rminus. ring.
  Qed.

  (** The nodes of the assembled rule, grouped. *)
  Definition panel_nodes : list R := map (fun p => nth 0 p 0) (q_nodes (kr_gauss k)) ++ kr_nodes k.
  Lemma panel_eval : exists pts I G,
    evalrule f (Fin a) (Fin b) x w gw = (pts, Ok (mkSeg a b (s * I) (Rabs (s * I - s * G))))
    /\ Permutation pts (map P panel_nodes) /\ length pts = (2 * n + 1)%nat
    /\ kr_call k (fun y => Ok (F y)) = Ok I /\ q_call (kr_gauss k) (fun p => Ok (F (nth 0 p 0))) = Ok G.
  Proof.
    assert (G0 : forall l : list R, map (fun p => nth 0 p 0) (map (fun t => [t]) l) = l).
    { intros l. rewrite map_map. cbn [nth]. apply map_id. }
    unfold evalrule, evalrule_fin. fold s. destruct (Nat.even n) eqn:EV.
    - (* even *)
      apply Nat.even_spec in EV. destruct EV as [p EV]. assert (Hp : (1 <= p)%nat) by lia.
      assert (Lg' : length gw = p). { rewrite Lg, EV. replace (2 * p + 1)%nat with (1 + p * 2)%nat by lia. now rewrite Nat.div_add by lia. }
      assert (M1 : (length x mod 2 = 1)%nat) by (rewrite Lx, EV; replace (2 * p + 1)%nat with (1 + p * 2)%nat by lia; now rewrite Nat.mod_add by lia).
      assert (M2 : (n mod 2 = 0)%nat) by (rewrite EV; replace (2 * p)%nat with (p * 2)%nat by lia; now rewrite Nat.mod_mul by lia).
      rewrite M1, Lg'. replace (p - (1 - 1))%nat with p by lia. rewrite panel_loop.
      destruct (evens_even p x ltac:(lia)) as [X1 X2]. destruct (evens_even p w ltac:(lia)) as [W1 W2].
      assert (LW : last w 0 = wk p). { rewrite last_nth by (intros ->; cbn in Lw; lia). unfold wk. f_equal. lia. }
      cbn [tbind Nat.eqb Nat.sub]. unfold f, feval. cbn [tbind tret app].
      eexists. exists (rsum (fun i => wg i * (F (xg i) + F (- xg i))) p + (rsum (fun i => wk i * (F (xk i) + F (- xk i))) p + wk p * F 0)).
      exists (rsum (fun i => gi i * (F (xg i) + F (- xg i))) p). split; [|split; [|split; [|split]]].
      + f_equal. f_equal. rewrite rsum_plus, LW. replace (phi (a + s)) with (F 0) by (unfold F; f_equal; ring). f_equal; [ring|f_equal; ring].
      + unfold panel_nodes, k, assemble_kronrod. rewrite M2. cbn [Nat.eqb kr_gauss kr_nodes q_nodes]. rewrite G0, X1, X2, removelast_map_seq.
        rewrite perm4. rewrite !map_app, !map_map, !map_rev, !map_map. cbn [map].
        rewrite <- !Permutation_rev. rewrite <- !app_assoc. apply Permutation_app; [reflexivity|].
        apply Permutation_app; [reflexivity|]. apply Permutation_app; [reflexivity|]. replace (P 0) with (a + s) by (unfold P; ring). apply Permutation_app_comm.
      + rewrite app_length. cbn [length]. rewrite flat_map_concat_map, (concat_const_length 4), map_length, seq_length; [lia|].
        intros l Hl. apply in_map_iff in Hl. destruct Hl as (i & <- & _). reflexivity.
      + unfold kr_call, k, assemble_kronrod. rewrite M2. cbn [Nat.eqb kr_gauss kr_nodes kr_weights kr_gauss_weights q_nodes].
        rewrite (mapM_total (fun p0 : list R => F (nth 0 p0 0))). cbn [bind]. rewrite <- map_map with (f := fun p0 : list R => nth 0 p0 0), G0.
        rewrite mapM_total. cbn [bind]. rewrite X1, X2, W1, W2, !removelast_map_seq, last_map_seq.
        match goal with |- (if negb ?c then _ else _) = _ => assert (c = true) as -> end.
        { apply Nat.eqb_eq. repeat (rewrite map_length || rewrite app_length || rewrite rev_length || rewrite seq_length). cbn [length]. lia. }
        cbn [negb].
        match goal with |- (if negb ?c then _ else _) = _ => assert (c = true) as -> end.
        { apply Nat.eqb_eq. repeat (rewrite map_length || rewrite app_length || rewrite rev_length || rewrite seq_length). cbn [length]. lia. }
        cbn [negb]. apply f_equal. exact (f_equal2 Rplus (dotR_mirror F xg wg p) (dotR_mirror0 F xk wk 0 (wk p) p)).
      + unfold q_call, k, assemble_kronrod. rewrite M2. cbn [Nat.eqb kr_gauss q_nodes q_weights].
        rewrite (mapM_total (fun p0 : list R => F (nth 0 p0 0))). cbn [bind]. rewrite <- map_map with (f := fun p0 : list R => nth 0 p0 0), G0.
        rewrite X2. assert (RG : gw = map gi (seq 0 p)) by exact (list_as_map gw p Lg').
        replace (gw ++ rev gw) with (map gi (seq 0 p) ++ rev (map gi (seq 0 p))) by now rewrite <- RG.
        match goal with |- (if ?c then _ else _) = _ => assert (c = true) as -> end.
        { apply Nat.eqb_eq. repeat (rewrite map_length || rewrite app_length || rewrite rev_length || rewrite seq_length). cbn [length]. lia. }
        f_equal. rewrite dotR_comm. exact (dotR_mirror F xg gi p).
    - (* odd *)
      assert (OD : Nat.Odd n) by (apply Nat.odd_spec; unfold Nat.odd; now rewrite EV). destruct OD as [p OD].
      assert (Lg' : length gw = S p). { rewrite Lg, OD. replace (2 * p + 1 + 1)%nat with (S p * 2)%nat by lia. now rewrite Nat.div_mul by lia. }
      assert (M1 : (length x mod 2 = 0)%nat) by (rewrite Lx, OD; replace (2 * p + 1 + 1)%nat with (S p * 2)%nat by lia; now rewrite Nat.mod_mul by lia).
      assert (M2 : (n mod 2 = 1)%nat) by (rewrite OD; replace (2 * p + 1)%nat with (1 + p * 2)%nat by lia; now rewrite Nat.mod_add by lia).
      rewrite M1, Lg'. replace (S p - (1 - 0))%nat with p by lia. rewrite panel_loop.
      destruct (evens_odd p x ltac:(lia)) as [X1 X2]. destruct (evens_odd p w ltac:(lia)) as [W1 W2].
      assert (LW : last w 0 = wg p). { rewrite last_nth by (intros ->; cbn in Lw; lia). unfold wg. f_equal. lia. }
      assert (LG : last gw 0 = gi p). { rewrite last_nth by (intros ->; cbn in Lg'; lia). unfold gi. f_equal. lia. }
      assert (XL : nth (length x - 2) x 0 = xk p) by (unfold xk; f_equal; lia).
      assert (WL : nth (length w - 2) w 0 = wk p) by (unfold wk; f_equal; lia).
      rewrite XL, WL, LW, LG.
      cbn [tbind Nat.eqb Nat.sub]. unfold f, feval. cbn [tbind tret app].
      eexists. exists (rsum (fun i => wg i * (F (xg i) + F (- xg i))) p + wg p * F 0 + rsum (fun i => wk i * (F (xk i) + F (- xk i))) (S p)).
      exists (rsum (fun i => gi i * (F (xg i) + F (- xg i))) p + gi p * F 0). split; [|split; [|split; [|split]]].
      + f_equal. f_equal. rewrite rsum_plus, rsum_S. replace (phi (a + s)) with (F 0) by (unfold F; f_equal; ring).
        replace (phi (a + (1 + xk p) * s)) with (F (xk p)) by reflexivity. replace (phi (a + (1 - xk p) * s)) with (F (- xk p)) by (unfold F; f_equal; ring).
        f_equal; [ring|f_equal; ring].
      + unfold panel_nodes, k, assemble_kronrod. rewrite M2. cbn [Nat.eqb kr_gauss kr_nodes q_nodes]. rewrite G0, X1, X2, removelast_map_seq.
        rewrite perm4. rewrite !map_app, !map_map, !map_rev, !map_map. cbn [map].
        rewrite <- !Permutation_rev. rewrite seq_S, !map_app. cbn [map Nat.add].
        replace (P 0) with (a + s) by (unfold P; ring). fold (xk p). replace (a + (1 - xk p) * s) with (P (- xk p)) by (unfold P; ring).
        change (a + (1 + xk p) * s) with (P (xk p)).
        change (map (fun x0 : nat => P (nth (2 * x0 + 1) x 0)) (seq 0 p)) with (map (fun i => P (xg i)) (seq 0 p)).
        change (map (fun x0 : nat => P (- nth (2 * x0 + 1) x 0)) (seq 0 p)) with (map (fun i => P (- xg i)) (seq 0 p)).
        change (map (fun x0 : nat => P (nth (2 * x0) x 0)) (seq 0 p)) with (map (fun i => P (xk i)) (seq 0 p)).
        change (map (fun x0 : nat => P (- nth (2 * x0) x 0)) (seq 0 p)) with (map (fun i => P (- xk i)) (seq 0 p)).
        generalize (map (fun i => P (xg i)) (seq 0 p)) (map (fun i => P (- xg i)) (seq 0 p)) (map (fun i => P (xk i)) (seq 0 p)) (map (fun i => P (- xk i)) (seq 0 p)).
        intros A B C D. change (nth (2 * p) x 0) with (xk p). rewrite <- !app_assoc. apply Permutation_app; [reflexivity|]. cbn [app].
        symmetry. transitivity ((a + s) :: (B ++ C ++ P (xk p) :: D ++ [P (- xk p)])); [symmetry; apply Permutation_middle || reflexivity|].
        symmetry. transitivity ((a + s) :: (B ++ C ++ D) ++ [P (xk p); P (- xk p)]).
        { rewrite !app_assoc. symmetry. apply Permutation_middle. }
        constructor. rewrite <- !app_assoc. apply Permutation_app; [reflexivity|]. apply Permutation_app; [reflexivity|].
        cbn [app]. symmetry. apply Permutation_middle with (l1 := D) (l2 := [P (- xk p)]) (a := P (xk p)).
      + rewrite app_length. cbn [length]. rewrite flat_map_concat_map, (concat_const_length 4), map_length, seq_length; [lia|].
        intros l Hl. apply in_map_iff in Hl. destruct Hl as (i & <- & _). reflexivity.
      + unfold kr_call, k, assemble_kronrod. rewrite M2. cbn [Nat.eqb kr_gauss kr_nodes kr_weights kr_gauss_weights q_nodes].
        rewrite (mapM_total (fun p0 : list R => F (nth 0 p0 0))). cbn [bind]. rewrite <- map_map with (f := fun p0 : list R => nth 0 p0 0), G0.
        rewrite mapM_total. cbn [bind]. rewrite X1, X2, W1, W2, !removelast_map_seq, LW.
        match goal with |- (if negb ?c then _ else _) = _ => assert (c = true) as -> end.
        { apply Nat.eqb_eq. repeat (rewrite map_length || rewrite app_length || rewrite rev_length || rewrite seq_length). cbn [length]. lia. }
        cbn [negb].
        match goal with |- (if negb ?c then _ else _) = _ => assert (c = true) as -> end.
        { apply Nat.eqb_eq. repeat (rewrite map_length || rewrite app_length || rewrite rev_length || rewrite seq_length). cbn [length]. lia. }
        cbn [negb]. apply f_equal. exact (f_equal2 Rplus (dotR_mirror0 F xg wg 0 (wg p) p) (dotR_mirror F xk wk (S p))).
      + unfold q_call, k, assemble_kronrod. rewrite M2. cbn [Nat.eqb kr_gauss q_nodes q_weights].
        rewrite (mapM_total (fun p0 : list R => F (nth 0 p0 0))). cbn [bind]. rewrite <- map_map with (f := fun p0 : list R => nth 0 p0 0), G0.
        rewrite X2. assert (RG : removelast gw = map gi (seq 0 p)) by exact (eq_trans (f_equal (@removelast R) (list_as_map gw (S p) Lg')) (removelast_map_seq gi p)).
        rewrite RG, LG, removelast_map_seq.
        match goal with |- (if ?c then _ else _) = _ => assert (c = true) as -> end.
        { apply Nat.eqb_eq. repeat (rewrite map_length || rewrite app_length || rewrite rev_length || rewrite seq_length). cbn [length]. lia. }
        f_equal. rewrite dotR_comm. exact (dotR_mirror0 F xg gi 0 (gi p) p).
  Qed.
End Panel.
