(** * Submeshes: the loop, and alcoves *)
From Coq Require Import List Arith Bool Reals Lra Lia Permutation.
From Verif Require Import Py PyToolsModel RSum ModelShapes ModelSpaces ModelNodes ModelSubmesh SpecIndex SpecGeometry SpecSubmesh EnumFacts ProofDiffPerm.
Import ListNotations.
Local Open Scope nat_scope.

(** ** The loop *)
Definition found (nts : list (list nat)) (c : list nat) (ds : list (list nat)) : list (list nat) :=
  match element_at nts c ds with Ok e => [e] | Err _ => [] end.
Lemma dict_cases keys key : (exists i, dict_index keys key = Ok i /\ nth_error keys i = Some key) \/ (dict_index keys key = Err KeyError /\ ~ In key keys).
Proof.
  unfold dict_index. assert (G : forall s, (exists i, dict_index_from s keys key = Some (s + i) /\ nth_error keys i = Some key) \/ (dict_index_from s keys key = None /\ ~ In key keys)).
  { induction keys as [|k keys IH]; intros s; [now right|]. cbn [dict_index_from]. destruct (IH (S s)) as [(i & E & Hi)|[E Hni]]; rewrite E.
    - left. exists (S i). split; [f_equal; lia|easy].
    - destruct (tuple_eqb k key) eqn:Ek.
      + apply tuple_eqb_eq in Ek. subst. left. exists 0. split; [f_equal; lia|easy].
      + right. split; [easy|]. intros [->|X]; [|easy]. now rewrite tuple_eqb_refl in Ek. }
  destruct (G 0) as [(i & E & Hi)|[E Hni]]; rewrite E; [left|now right]. now exists i.
Qed.
Lemma element_cases nts c ds : (exists e, element_at nts c ds = Ok e /\ Forall2 (fun o i => nth_error nts i = Some (add_tuples c o)) ds e)
  \/ (element_at nts c ds = Err KeyError /\ exists o, In o ds /\ ~ In (add_tuples c o) nts).
Proof.
  unfold element_at. induction ds as [|o ds IH]; [left; exists []; split; [easy|constructor]|]. cbn [mapM].
  destruct (dict_cases nts (add_tuples c o)) as [(i & E & Hi)|[E Hni]]; rewrite E; cbn [bind].
  - destruct IH as [(e & E2 & F)|[E2 (o' & Ho & N)]]; rewrite E2; cbn [bind].
    + left. exists (i :: e). split; [easy|]. now constructor.
    + right. split; [easy|]. exists o'. split; [now right|easy].
  - right. split; [easy|]. exists o. split; [now left|easy].
Qed.
Lemma loop_is nts cands : submesh_loop nts cands = Ok (flat_map (fun c => flat_map (found nts c) cands) nts).
Proof.
  unfold submesh_loop. assert (I : forall c cs acc, fold_left (fun acc ds => let* result := acc in append_suppress result (element_at nts c ds)) cs (Ok acc) = Ok (acc ++ flat_map (found nts c) cs)).
  { induction cs as [|ds cs IH]; intros acc; cbn [fold_left flat_map]; [now rewrite app_nil_r|]. cbn [bind]. unfold found at 1.
    destruct (element_cases nts c ds) as [(e & E & _)|[E _]]; rewrite E; cbn [append_suppress]; rewrite IH; [now rewrite <- app_assoc|easy]. }
  assert (O : forall l acc, fold_left (fun acc c => fold_left (fun acc ds => let* result := acc in append_suppress result (element_at nts c ds)) cands acc) l (Ok acc)
     = Ok (acc ++ flat_map (fun c => flat_map (found nts c) cands) l)).
  { induction l as [|c l IH]; intros acc; cbn [fold_left flat_map]; [now rewrite app_nil_r|]. rewrite I, IH. now rewrite <- app_assoc. }
  apply (O nts []).
Qed.
(** What is in the result. *)
Lemma in_result nts cands e : In e (flat_map (fun c => flat_map (found nts c) cands) nts) <->
  exists c ds, In c nts /\ In ds cands /\ element_at nts c ds = Ok e.
Proof.
  split.
  - intros H. apply in_flat_map in H as (c & Hc & H). apply in_flat_map in H as (ds & Hd & H). unfold found in H. destruct (element_at nts c ds) eqn:E; cbn in H; [|tauto]. destruct H as [<-|[]]. exists c, ds. easy.
  - intros (c & ds & Hc & Hd & E). apply in_flat_map. exists c. split; [easy|]. apply in_flat_map. exists ds. split; [easy|]. unfold found. rewrite E. now left.
Qed.
(** Vertices of an element, as tuples. *)
Definition corners (c : list nat) (ds : list (list nat)) : list (list nat) := map (add_tuples c) ds.
Lemma element_corners nts c ds e : element_at nts c ds = Ok e -> map (fun i => nth i nts []) e = corners c ds /\ Forall (fun i => i < length nts) e /\ length e = length ds.
Proof.
  intros E. destruct (element_cases nts c ds) as [(e' & E' & F)|[E' _]]; [|congruence]. assert (e' = e) as -> by congruence. clear E E'. unfold corners.
  induction F as [|o i ds e H F (IH1 & IH2 & IH3)]; [easy|]. cbn. rewrite IH1, IH3. split; [|split; [|easy]].
  - f_equal. now apply nth_error_nth.
  - constructor; [|easy]. apply nth_error_Some. congruence.
Qed.
Lemma element_exists nts c ds : (forall o, In o ds -> In (add_tuples c o) nts) -> exists e, element_at nts c ds = Ok e.
Proof. intros H. destruct (element_cases nts c ds) as [(e & E & F)|[E (o & Ho & N)]]; [now exists e|]. now apply H in Ho. Qed.
Lemma element_in nts c ds e : element_at nts c ds = Ok e -> forall o, In o ds -> In (add_tuples c o) nts.
Proof. intros E o Ho. destruct (element_cases nts c ds) as [(e' & E' & F)|[E' _]]; [|congruence]. clear E E'. induction F as [|o' i ds e'' H F IH]; [easy|]. destruct Ho as [->|Ho]; [eapply nth_error_In; eauto|auto]. Qed.
(** ** Functionals *)
Definition rootf (l : list nat) (v : list nat) : nat := total (map (fun i => nth i v 0) l).
Lemma nth_add c o i : length c = length o -> nth i (add_tuples c o) 0 = nth i c 0 + nth i o 0.
Proof. revert o i. induction c as [|a c IH]; intros [|b o] i L; try discriminate; [now destruct i|]. cbn [add_tuples]. destruct i; cbn [nth]; [easy|]. apply IH. now injection L. Qed.
Lemma add_length c o : length c = length o -> length (add_tuples c o) = length c.
Proof. revert o. induction c as [|a c IH]; intros [|b o] L; try discriminate; [easy|]. cbn. f_equal. apply IH. now injection L. Qed.
Lemma total_add c o : length c = length o -> total (add_tuples c o) = total c + total o.
Proof. revert o. induction c as [|a c IH]; intros [|b o] L; try discriminate; [easy|]. cbn [add_tuples total fold_right]. unfold total in *. rewrite IH by (now injection L). lia. Qed.
Lemma rootf_add l c o : length c = length o -> rootf l (add_tuples c o) = rootf l c + rootf l o.
Proof. intros L. induction l as [|i l IH]; [easy|]. unfold rootf, total in *. cbn [map fold_right]. rewrite IH, (nth_add c o i L). lia. Qed.

Local Open Scope R_scope.
Definition avg (w : list R) (V : list (list nat)) (f : list nat -> nat) : R := list_sum (map (fun '(a, v) => a * INR (f v)) (combine w V)).
Lemma avg_plus w V f g : avg w V (fun v => f v + g v)%nat = avg w V f + avg w V g.
Proof. unfold avg. revert V. induction w as [|a w IH]; intros [|v V]; cbn; try lra. unfold list_sum in IH. rewrite IH, plus_INR. ring. Qed.
Lemma avg_zero w V : avg w V (fun _ => 0%nat) = 0.
Proof. unfold avg. revert V. induction w as [|a w IH]; intros [|v V]; cbn; try lra. unfold list_sum in IH. rewrite IH. ring. Qed.
Lemma same_avg d w V w' V' l : (forall i, (i < d)%nat -> avg w V (fun v => nth i v 0%nat) = avg w' V' (fun v => nth i v 0%nat)) -> Forall (fun i => (i < d)%nat) l ->
  avg w V (rootf l) = avg w' V' (rootf l).
Proof.
  intros H F. induction F as [|i l Hi F IH].
  - change (avg w V (fun _ => 0%nat) = avg w' V' (fun _ => 0%nat)). now rewrite !avg_zero.
  - change (avg w V (fun v => nth i v 0 + rootf l v)%nat = avg w' V' (fun v => nth i v 0 + rootf l v)%nat). rewrite !avg_plus, IH, H by easy. easy.
Qed.
Lemma list_sum_ge w : Forall (Rle 0) w -> 0 <= list_sum w.
Proof. induction 1; cbn; [lra|]. unfold list_sum in *. lra. Qed.
Lemma avg_ge w V f k : length w = length V -> Forall (Rle 0) w -> Forall (fun v => (k <= f v)%nat) V -> INR k * list_sum w <= avg w V f.
Proof.
  unfold avg. revert V. induction w as [|a w IH]; intros [|v V] L Hw HV; try discriminate; cbn; [lra|]. inversion Hw; inversion HV; subst. 
  specialize (IH V ltac:(now injection L) ltac:(easy) ltac:(easy)). unfold list_sum in *. apply le_INR in H5. nra.
Qed.
Lemma avg_le w V f k : length w = length V -> Forall (Rle 0) w -> Forall (fun v => (f v <= k)%nat) V -> avg w V f <= INR k * list_sum w.
Proof.
  unfold avg. revert V. induction w as [|a w IH]; intros [|v V] L Hw HV; try discriminate; cbn; [lra|]. inversion Hw; inversion HV; subst. 
  specialize (IH V ltac:(now injection L) ltac:(easy) ltac:(easy)). unfold list_sum in *. apply le_INR in H5. nra.
Qed.
Lemma weak w : Forall (Rlt 0) w -> Forall (Rle 0) w.
Proof. apply Forall_impl. intros; lra. Qed.
Lemma avg_gt w V f k : length w = length V -> Forall (Rlt 0) w -> Forall (fun v => (k <= f v)%nat) V -> Exists (fun v => f v = k + 1)%nat V -> INR k * list_sum w < avg w V f.
Proof.
  unfold avg. revert V. induction w as [|a w IH]; intros [|v V] L Hw HV HE; try discriminate; [inversion HE|]. cbn. inversion Hw; inversion HV; subst. assert (L' : length w = length V) by now injection L.
  apply le_INR in H5. inversion HE; subst.
  - pose proof (avg_ge w V f k L' (weak _ H2) H6) as G. unfold avg, list_sum in *. rewrite H0, plus_INR. cbn [INR]. nra.
  - specialize (IH V L' H2 H6 H0). unfold list_sum in *. nra.
Qed.
Lemma avg_lt w V f k : length w = length V -> Forall (Rlt 0) w -> Forall (fun v => (f v <= k + 1)%nat) V -> Exists (fun v => f v = k) V -> avg w V f < INR (k + 1) * list_sum w.
Proof.
  unfold avg. revert V. induction w as [|a w IH]; intros [|v V] L Hw HV HE; try discriminate; [inversion HE|]. cbn [list_sum fold_right combine map]. inversion Hw; inversion HV; subst. assert (L' : length w = length V) by now injection L.
  apply le_INR in H5. inversion HE; subst.
  - pose proof (avg_le w V f _ L' (weak _ H2) H6) as G. unfold avg, list_sum in *. rewrite plus_INR in *. cbn [INR] in *. nra.
  - specialize (IH V L' H2 H6 H0). unfold list_sum in *. nra.
Qed.
(** Vertices that carry weight lie where the average lies on the border of the slab. *)
Lemma carrier_top w V f k : length w = length V -> Forall (Rle 0) w -> Forall (fun v => (f v <= k)%nat) V -> avg w V f = INR k * list_sum w ->
  forall j, (j < length w)%nat -> 0 < nth j w 0 -> f (nth j V []) = k.
Proof.
  unfold avg. revert V. induction w as [|a w IH]; intros [|v V] L Hw HV E j Hj Hp; try discriminate; [cbn in Hj; lia|]. inversion Hw; inversion HV; subst. assert (L' : length w = length V) by now injection L.
  pose proof (avg_le w V f _ L' H2 H6) as G. cbn in E. unfold avg, list_sum in *. pose proof (le_INR _ _ H5). destruct j as [|j]; cbn [nth] in *.
  - apply INR_eq. assert (INR k * a <= a * INR (f v)) by nra. nra.
  - apply (IH V L' H2 H6); [|cbn in Hj; lia|easy]. assert (a * INR (f v) <= INR k * a) by nra. lra.
Qed.
Lemma carrier_bottom w V f k : length w = length V -> Forall (Rle 0) w -> Forall (fun v => (k <= f v)%nat) V -> avg w V f = INR k * list_sum w ->
  forall j, (j < length w)%nat -> 0 < nth j w 0 -> f (nth j V []) = k.
Proof.
  unfold avg. revert V. induction w as [|a w IH]; intros [|v V] L Hw HV E j Hj Hp; try discriminate; [cbn in Hj; lia|]. inversion Hw; inversion HV; subst. assert (L' : length w = length V) by now injection L.
  pose proof (avg_ge w V f _ L' H2 H6) as G. cbn in E. unfold avg, list_sum in *. pose proof (le_INR _ _ H5). destruct j as [|j]; cbn [nth] in *.
  - apply INR_eq. assert (a * INR (f v) <= INR k * a) by nra. nra.
  - apply (IH V L' H2 H6); [|cbn in Hj; lia|easy]. assert (INR k * a <= a * INR (f v)) by nra. lra.
Qed.
