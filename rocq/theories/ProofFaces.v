(** * Faces: polytopes, their boundaries, and the face tables *)
From Coq Require Import List Arith Bool Reals Lra Lia.
From Verif Require Import Py PyToolsModel RSum ModelNd ModelShapes ModelSpaces ModelNodes ModelFaces SpecGeometry SpecFaces.
Import ListNotations.
Local Open Scope R_scope.

(** ** Polytopes given by inequalities *)
Fixpoint dot (l x : list R) : R := match l, x with a :: l', b :: x' => a * b + dot l' x' | _, _ => 0 end.
Definition polytope (d : nat) (cs : list (list R * R)) (x : list R) : Prop := length x = d /\ Forall (fun c => dot (fst c) x <= snd c) cs.
Definition norm1 (l : list R) : R := fold_right (fun a s => Rabs a + s) 0 l.
Lemma norm1_nonneg l : 0 <= norm1 l.
Proof. induction l as [|a l IH]; cbn [norm1 fold_right]; [lra|]. pose proof (Rabs_pos a). unfold norm1 in IH. lra. Qed.
Lemma dot_close l x y eps : length y = length x -> (forall i, (i < length x)%nat -> Rabs (nth i y 0 - nth i x 0) <= eps) -> 0 <= eps -> Rabs (dot l y - dot l x) <= norm1 l * eps.
Proof.
  revert x y. induction l as [|a l IH]; intros [|b x] [|c y] L H E; try discriminate; cbn [dot norm1 fold_right].
  - rewrite Rminus_diag_eq, Rabs_R0 by easy. lra.
  - rewrite Rminus_diag_eq, Rabs_R0 by easy. lra.
  - rewrite Rminus_diag_eq, Rabs_R0 by easy. pose proof (Rabs_pos a). pose proof (norm1_nonneg l). unfold norm1 in *. nra.
  - replace (a * c + dot l y - (a * b + dot l x)) with (a * (c - b) + (dot l y - dot l x)) by ring.
    eapply Rle_trans; [apply Rabs_triang|]. rewrite Rabs_mult. rewrite Rmult_plus_distr_r. apply Rplus_le_compat.
    + apply Rmult_le_compat_l; [apply Rabs_pos|]. exact (H 0%nat ltac:(cbn [length]; lia)).
    + apply IH; [now injection L|intros i Hi; apply (H (S i)); cbn [length]; lia|easy].
Qed.
(** All constraints strict: a neighbourhood lies inside. *)
Lemma strict_interior d cs x : length x = d -> Forall (fun c => dot (fst c) x < snd c) cs ->
  exists eps, 0 < eps /\ forall y, length y = d -> (forall i, (i < d)%nat -> Rabs (nth i y 0 - nth i x 0) < eps) -> polytope d cs y.
Proof.
  intros L H. induction H as [|[l c] cs Hc H (eps & E & IH)]; cbn [fst snd] in *.
  - exists 1. split; [lra|]. intros y Ly _. split; [easy|constructor].
  - pose proof (norm1_nonneg l) as N. set (e2 := (c - dot l x) / (1 + norm1 l)). assert (0 < e2) by (apply Rdiv_lt_0_compat; lra).
    exists (Rmin eps e2). split; [now apply Rmin_glb_lt|]. intros y Ly Hy. destruct (IH y Ly) as [_ HP].
    { intros i Hi. eapply Rlt_le_trans; [now apply Hy|apply Rmin_l]. }
    split; [easy|]. constructor; [|easy]. cbn [fst snd]. pose proof (dot_close l x y e2 ltac:(congruence)) as D.
    assert (Rabs (dot l y - dot l x) <= norm1 l * e2). { apply D; [|lra]. intros i Hi. left. eapply Rlt_le_trans; [apply Hy; lia|apply Rmin_r]. }
    assert (norm1 l * e2 <= c - dot l x). { replace (c - dot l x) with ((1 + norm1 l) * e2) by (unfold e2; field; lra). nra. }
    pose proof (Rle_abs (dot l y - dot l x)). lra.
Qed.
Lemma dot_shift l x t : dot l (map2 (fun b a => b + t * a) x l) = dot l x + t * dot (firstn (length x) l) l.
Proof.
  revert x. induction l as [|a l IH]; intros [|b x]; cbn [dot map2 combine map length firstn]; try ring. unfold map2 in IH. rewrite IH. ring.
Qed.
Lemma dot_self_pos l : (exists a, In a l /\ a <> 0) -> 0 < dot l l.
Proof.
  assert (N : forall l, 0 <= dot l l) by (induction l0 as [|a l0 IH]; cbn [dot]; [lra|nra]).
  induction l as [|a l IH]; [intros (b & [] & _)|]. intros (b & [<-|HI] & Hb); cbn [dot].
  - specialize (N l). nra.
  - assert (0 < dot l l) by (apply IH; eauto). nra.
Qed.
Lemma map2_length f u v : length (map2 f u v) = Nat.min (length u) (length v).
Proof. unfold map2. now rewrite map_length, combine_length. Qed.
Lemma map2_nth f u v i : length u = length v -> (i < length u)%nat -> nth i (map2 f u v) 0 = f (nth i u 0) (nth i v 0).
Proof.
  revert v i. induction u as [|a u IH]; intros [|b v] i L Hi; try discriminate; [cbn [length] in Hi; lia|].
  destruct i as [|i]; [reflexivity|]. apply (IH v i); [now injection L|cbn [length] in Hi; lia].
Qed.
Theorem polytope_boundary d cs x : Forall (fun c => length (fst c) = d /\ exists a, In a (fst c) /\ a <> 0) cs ->
  boundary (polytope d cs) x <-> polytope d cs x /\ exists c, In c cs /\ dot (fst c) x = snd c.
Proof.
  intros HC. unfold boundary. split.
  - intros [HP HB]. split; [easy|]. destruct (Exists_dec (fun c => dot (fst c) x = snd c) cs (fun c => Req_EM_T _ _)) as [E|N].
    { apply Exists_exists in E. exact E. }
    exfalso. destruct HP as [L HP]. destruct (strict_interior d cs x L) as (eps & E & HI).
    + apply Forall_forall. intros c Hc. rewrite Forall_forall in HP. destruct (Rle_lt_or_eq_dec _ _ (HP c Hc)) as [|Q]; [easy|]. exfalso. apply N. apply Exists_exists. eauto.
    + destruct (HB eps E) as (y & Ly & Hy & Ny). apply Ny. apply HI; [congruence|]. intros i Hi. apply Hy. lia.
  - intros [HP (c & HI & HE)]. split; [easy|]. intros eps E. rewrite Forall_forall in HC. destruct (HC c HI) as [LC NC]. destruct HP as [L HP].
    pose proof (norm1_nonneg (fst c)) as N. set (t := eps / (2 * (1 + norm1 (fst c)))). assert (T : 0 < t) by (apply Rdiv_lt_0_compat; nra).
    exists (map2 (fun b a => b + t * a) x (fst c)). split; [rewrite map2_length; lia|]. split.
    + intros i Hi. rewrite map2_nth by lia. replace (nth i x 0 + t * nth i (fst c) 0 - nth i x 0) with (t * nth i (fst c) 0) by ring. rewrite Rabs_mult, (Rabs_right t) by lra.
      assert (Rabs (nth i (fst c) 0) <= norm1 (fst c)).
      { clear - Hi LC L. rewrite <- LC in L. revert x i L Hi. generalize (fst c). induction l as [|a l IH]; intros x i L Hi; cbn [length] in L; [lia|]. cbn [norm1 fold_right]. fold (norm1 l).
        pose proof (norm1_nonneg l). pose proof (Rabs_pos a). destruct i as [|i]; cbn [nth]; [lra|]. destruct x as [|b x]; [discriminate|]. pose proof (IH x i ltac:(now injection L) ltac:(cbn [length] in Hi; lia)). lra. }
      assert (t * (2 * (1 + norm1 (fst c))) = eps) by (unfold t; field; lra). nra.
    + intros [_ HQ]. rewrite Forall_forall in HQ. specialize (HQ c HI). rewrite dot_shift, HE in HQ. rewrite firstn_all2 in HQ by lia. pose proof (dot_self_pos _ NC). nra.
Qed.
Lemma boundary_ext P Q x : (forall y, P y <-> Q y) -> boundary P x <-> boundary Q x.
Proof.
  intros H. unfold boundary. rewrite H. split; intros [A B]; (split; [easy|]); intros eps E; destruct (B eps E) as (y & L & C & N); exists y; (split; [easy|]); (split; [easy|]); intros X; apply N, H, X.
Qed.
