(** * Face integrals of monomials on the reference elements *)
From Coquelicot Require Import Coquelicot.
From Coq Require Import List Arith Bool ZArith Reals Lra Lia Factorial.
From Verif Require Import Py PyToolsModel RSum IntFacts ModelNd ModelShapes ModelSpaces ModelNodes ModelFaces SpecGeometry SpecFaces SpecIntegral SpecIndex SpecPoly SpecPartial
  ProofDirichlet ProofFaces ProofFaces2 PropsFaces.
Import ListNotations.
Local Open Scope R_scope.

Definition half (x : list R) : list R := map (fun c => (c + 1) / 2) x.
(** The point of the element a face point is mapped to. *)
Definition image (f : face) (p : list R) : list R := match map_to_volume f p with Ok x => x | Err _ => [] end.

Lemma int_cast s f (l m : R) : is_int s f l -> l = m -> is_int s f m.
Proof. now intros H <-. Qed.

(** ** Moments with the last barycentric coordinate *)
Lemma fS n : INR (fact (S n)) = (INR n + 1) * INR (fact n).
Proof. rewrite fact_simpl, mult_INR, S_INR. reflexivity. Qed.
Lemma fpos n : INR (fact n) <> 0.
Proof. apply INR_fact_neq_0. Qed.

Definition dir1 (a b : nat) : R := 2 * (INR (fact a) * INR (fact b) / INR (fact (a + b + 1))).
Definition dir2 (a b c : nat) : R := 4 * (INR (fact a) * INR (fact b) * INR (fact c) / INR (fact (a + b + c + 2))).
Lemma dir1_int a b : is_int (Simplex 1) (fun x => (1 - (nth 0 x 0 + 1) / 2) ^ a * ((nth 0 x 0 + 1) / 2) ^ b) (dir1 a b).
Proof.
  revert b. induction a as [|a IH]; intros b.
  - eapply is_int_ext; [|eapply int_cast; [apply (dirichlet_ref 1 [b] eq_refl)|]].
    + intros x Hx. apply in_segment in Hx. destruct Hx as (c & -> & _). cbn [map monoval nth pow]. ring.
    + unfold dir1, prodfact, total. cbn [map fold_right]. rewrite Nat.mul_1_r, !Nat.add_0_r, Nat.add_0_l. cbn [fact]. change (INR 1) with 1. pose proof (fpos (b + 1)). field. exact H.
  - eapply is_int_ext; [|eapply int_cast; [apply is_int_plus; [apply (IH b)|apply (is_int_scal _ (-1)), (IH (S b))]|]].
    + intros x _. cbv beta. cbn [pow]. ring.
    + unfold dir1. replace (a + S b + 1)%nat with (S (a + b + 1)) by lia. replace (S a + b + 1)%nat with (S (a + b + 1)) by lia. rewrite !fS, !plus_INR. change (INR 1) with 1.
      pose proof (fpos (a + b + 1)). pose proof (pos_INR a). pose proof (pos_INR b). field. repeat split; first [assumption|lra].
Qed.
Lemma dir2_int a b c : is_int (Simplex 2) (fun x => (1 - (nth 0 x 0 + 1) / 2 - (nth 1 x 0 + 1) / 2) ^ a * ((nth 0 x 0 + 1) / 2) ^ b * ((nth 1 x 0 + 1) / 2) ^ c) (dir2 a b c).
Proof.
  revert b c. induction a as [|a IH]; intros b c.
  - eapply is_int_ext; [|eapply int_cast; [apply (dirichlet_ref 2 [b; c] eq_refl)|]].
    + intros x Hx. apply in_triangle in Hx. destruct Hx as (u & v & -> & _). cbn [map monoval nth pow]. ring.
    + unfold dir2, prodfact, total. cbn [map fold_right]. rewrite Nat.mul_1_r, !Nat.add_0_r, Nat.add_0_l, mult_INR. cbn [fact]. change (INR 1) with 1.
      pose proof (fpos (b + c + 2)). field. exact H.
  - eapply is_int_ext; [|eapply int_cast; [apply is_int_plus; [apply is_int_plus; [apply (IH b c)|apply (is_int_scal _ (-1)), (IH (S b) c)]|apply (is_int_scal _ (-1)), (IH b (S c))]|]].
    + intros x _. cbv beta. cbn [pow]. ring.
    + unfold dir2. replace (a + S b + c + 2)%nat with (S (a + b + c + 2)) by lia. replace (a + b + S c + 2)%nat with (S (a + b + c + 2)) by lia.
      replace (S a + b + c + 2)%nat with (S (a + b + c + 2)) by lia. rewrite !fS, !plus_INR. change (INR 2) with (1 + 1).
      pose proof (fpos (a + b + c + 2)). pose proof (pos_INR a). pose proof (pos_INR b). pose proof (pos_INR c). field. repeat split; first [assumption|lra].
Qed.
(** On the square: products of one-dimensional moments. *)
Lemma sq_int a b c d : is_int (cube 2) (fun x => (1 - (nth 0 x 0 + 1) / 2) ^ a * ((nth 0 x 0 + 1) / 2) ^ b * ((1 - (nth 1 x 0 + 1) / 2) ^ c * ((nth 1 x 0 + 1) / 2) ^ d)) (dir1 a b * dir1 c d).
Proof.
  unfold cube. apply is_int_TP. cbn [repeat].
  apply (is_ints_cons (Simplex 1) [Simplex 1] _ (fun x => (1 - (nth 0 x 0 + 1) / 2) ^ c * ((nth 0 x 0 + 1) / 2) ^ d) _ _ (dir1_int a b)).
  - rewrite <- (Rmult_1_r (dir1 c d)). apply (is_ints_cons (Simplex 1) [] _ (fun _ => 1) _ 1 (dir1_int c d)); [reflexivity|].
    intros p q Hp Hq. cbn in Hq. subst q. rewrite app_nil_r. ring.
  - intros p q Hp Hq. apply in_segment in Hp. destruct Hp as (u & -> & _). destruct Hq as (p' & q' & -> & Hp' & Hq'). cbn in Hq'. subst q'.
    apply in_segment in Hp'. destruct Hp' as (v & -> & _). reflexivity.
Qed.
Lemma cube_int a b c : is_int (cube 3) (fun x => ((nth 0 x 0 + 1) / 2) ^ a * ((nth 1 x 0 + 1) / 2) ^ b * ((nth 2 x 0 + 1) / 2) ^ c) (dir1 0 a * (dir1 0 b * dir1 0 c)).
Proof.
  unfold cube. apply is_int_TP. cbn [repeat].
  apply (is_ints_cons (Simplex 1) [Simplex 1; Simplex 1] _ (fun x => ((nth 0 x 0 + 1) / 2) ^ b * ((nth 1 x 0 + 1) / 2) ^ c) _ _ (dir1_int 0 a)).
  - apply (proj1 (is_int_TP CHypercube 2%nat [Simplex 1; Simplex 1] _ _)). eapply is_int_ext; [|apply (sq_int 0 b 0 c)].
    intros x _. cbn [pow]. ring.
  - intros p q Hp Hq. apply in_segment in Hp. destruct Hp as (u & -> & _). cbn [nth app pow]. ring.
Qed.

(** ** The faces *)
Lemma mono1v a x x' : x = x' -> x ^ a * 1 = x' ^ a.
Proof. intros ->. ring. Qed.
Lemma mono2v a b x y x' y' : x = x' -> y = y' -> x ^ a * (y ^ b * 1) = x' ^ a * y' ^ b.
Proof. intros -> ->. ring. Qed.
Lemma mono3v a b c x y z x' y' z' : x = x' -> y = y' -> z = z' -> x ^ a * (y ^ b * (z ^ c * 1)) = x' ^ a * y' ^ b * z' ^ c.
Proof. intros -> -> ->. ring. Qed.

Definition face_moment (f : face) (e : list nat) (v : R) : Prop := is_int (face_shape f) (fun p => monoval e (half (image f p))) v.
Ltac fc1 := let p := fresh in let Hp := fresh in intros p Hp; apply in_segment in Hp; destruct Hp as (?u & -> & _); unfold image; cbn [map_to_volume]; eval_map; unfold half; cbn [map]; symmetry.
Ltac fc2t := let p := fresh in let Hp := fresh in intros p Hp; apply in_triangle in Hp; destruct Hp as (?u & ?v & -> & _); unfold image; cbn [map_to_volume]; eval_map; unfold half; cbn [map]; symmetry.
Ltac fc2s := let p := fresh in let Hp := fresh in intros p Hp; apply in_square in Hp; destruct Hp as (?u & ?v & -> & _); unfold image; cbn [map_to_volume]; eval_map; unfold half; cbn [map]; symmetry.

Definition seg_moments (a : nat) : list R := [0 ^ a; 1].
Lemma seg_moments_ok a i f : nth_error simplex1_faces i = Some f -> face_moment f [a] (nth i (seg_moments a) 0).
Proof.
  intros H. destruct i as [|[|i]]; [| |destruct i; discriminate]; cbn in H; injection H as <-; unfold face_moment; cbn [face_shape is_int is_int_simplex seg_moments nth]; unfold image; cbn [map_to_volume]; eval_map; unfold half; cbn [map]; symmetry.
  - replace ((-1 + 0 + 1) / 2) with 0 by field. ring.
  - replace ((1 + 0 + 1) / 2) with 1 by field. rewrite pow1. ring.
Qed.
Definition tri_moments (a b : nat) : list R := [0 ^ b * dir1 0 a; 0 ^ a * dir1 b 0; dir1 a b].
Lemma tri_moments_ok a b i f : nth_error simplex2_faces i = Some f -> face_moment f [a; b] (nth i (tri_moments a b) 0).
Proof.
  intros H. destruct i as [|[|[|i]]]; [| | |destruct i; discriminate]; cbn in H; injection H as <-; unfold face_moment; cbn [face_shape tri_moments nth].
  - eapply is_int_ext; [|apply is_int_scal, dir1_int]. fc1. rewrite (mono2v _ _ _ _ ((u + 1) / 2) 0) by field. cbn [nth pow]. ring.
  - eapply is_int_ext; [|apply is_int_scal, dir1_int]. fc1. rewrite (mono2v _ _ _ _ 0 (1 - (u + 1) / 2)) by field. cbn [nth pow]. ring.
  - eapply is_int_ext; [|apply dir1_int]. fc1. rewrite (mono2v _ _ _ _ (1 - (u + 1) / 2) ((u + 1) / 2)) by field. cbn [nth pow]. ring.
Qed.
Definition tet_moments (a b c : nat) : list R := [0 ^ c * dir2 0 b a; 0 ^ b * dir2 0 a c; 0 ^ a * dir2 0 c b; dir2 a b c].
Lemma tet_moments_ok a b c i f : nth_error simplex3_faces i = Some f -> face_moment f [a; b; c] (nth i (tet_moments a b c) 0).
Proof.
  intros H. destruct i as [|[|[|[|i]]]]; [| | | |destruct i; discriminate]; cbn in H; injection H as <-; unfold face_moment; cbn [face_shape tet_moments nth].
  - eapply is_int_ext; [|apply is_int_scal, dir2_int]. fc2t. rewrite (mono3v _ _ _ _ _ _ ((v + 1) / 2) ((u + 1) / 2) 0) by field. cbn [nth pow]. ring.
  - eapply is_int_ext; [|apply is_int_scal, dir2_int]. fc2t. rewrite (mono3v _ _ _ _ _ _ ((u + 1) / 2) 0 ((v + 1) / 2)) by field. cbn [nth pow]. ring.
  - eapply is_int_ext; [|apply is_int_scal, dir2_int]. fc2t. rewrite (mono3v _ _ _ _ _ _ 0 ((v + 1) / 2) ((u + 1) / 2)) by field. cbn [nth pow]. ring.
  - eapply is_int_ext; [|apply dir2_int]. fc2t. rewrite (mono3v _ _ _ _ _ _ (1 - (u + 1) / 2 - (v + 1) / 2) ((u + 1) / 2) ((v + 1) / 2)) by field. cbn [nth pow]. ring.
Qed.
Definition sq_moments (a b : nat) : list R := [0 ^ b * dir1 0 a; dir1 a 0; 0 ^ a * dir1 b 0; dir1 0 b].
Lemma sq_moments_ok a b i f : nth_error cube2_faces i = Some f -> face_moment f [a; b] (nth i (sq_moments a b) 0).
Proof.
  intros H. destruct i as [|[|[|[|i]]]]; [| | | |destruct i; discriminate]; cbn in H; injection H as <-; unfold face_moment; cbn [face_shape sq_moments nth].
  - eapply is_int_ext; [|apply is_int_scal, dir1_int]. fc1. rewrite (mono2v _ _ _ _ ((u + 1) / 2) 0) by field. cbn [nth pow]. ring.
  - eapply is_int_ext; [|apply dir1_int]. fc1. rewrite (mono2v _ _ _ _ (1 - (u + 1) / 2) 1) by field. rewrite pow1. cbn [nth pow]. ring.
  - eapply is_int_ext; [|apply is_int_scal, dir1_int]. fc1. rewrite (mono2v _ _ _ _ 0 (1 - (u + 1) / 2)) by field. cbn [nth pow]. ring.
  - eapply is_int_ext; [|apply dir1_int]. fc1. rewrite (mono2v _ _ _ _ 1 ((u + 1) / 2)) by field. rewrite pow1. cbn [nth pow]. ring.
Qed.
Definition cube_moments (a b c : nat) : list R :=
  [0 ^ c * (dir1 0 b * dir1 0 a); dir1 0 a * dir1 0 b; 0 ^ a * (dir1 0 c * dir1 0 b); dir1 0 b * dir1 0 c; 0 ^ b * (dir1 0 a * dir1 0 c); dir1 0 c * dir1 0 a].
Lemma cube_moments_ok a b c i f : nth_error cube3_faces i = Some f -> face_moment f [a; b; c] (nth i (cube_moments a b c) 0).
Proof.
  intros H. destruct i as [|[|[|[|[|[|i]]]]]]; [| | | | | |destruct i; discriminate]; cbn in H; injection H as <-; unfold face_moment; cbn [face_shape cube_moments nth].
  - eapply is_int_ext; [|apply is_int_scal, sq_int]. fc2s. rewrite (mono3v _ _ _ _ _ _ ((v + 1) / 2) ((u + 1) / 2) 0) by field. cbn [nth pow]. ring.
  - eapply is_int_ext; [|apply sq_int]. fc2s. rewrite (mono3v _ _ _ _ _ _ ((u + 1) / 2) ((v + 1) / 2) 1) by field. rewrite pow1. cbn [nth pow]. ring.
  - eapply is_int_ext; [|apply is_int_scal, sq_int]. fc2s. rewrite (mono3v _ _ _ _ _ _ 0 ((v + 1) / 2) ((u + 1) / 2)) by field. cbn [nth pow]. ring.
  - eapply is_int_ext; [|apply sq_int]. fc2s. rewrite (mono3v _ _ _ _ _ _ 1 ((u + 1) / 2) ((v + 1) / 2)) by field. rewrite pow1. cbn [nth pow]. ring.
  - eapply is_int_ext; [|apply is_int_scal, sq_int]. fc2s. rewrite (mono3v _ _ _ _ _ _ ((u + 1) / 2) 0 ((v + 1) / 2)) by field. cbn [nth pow]. ring.
  - eapply is_int_ext; [|apply sq_int]. fc2s. rewrite (mono3v _ _ _ _ _ _ ((v + 1) / 2) 1 ((u + 1) / 2)) by field. rewrite pow1. cbn [nth pow]. ring.
Qed.

(** ** Normals *)
Definition seg_n : list (list R) := [[- (1)]; [1]].
Definition tri_n : list (list R) := [[0; -2]; [-2; 0]; [2; 2]].
Definition tet_n : list (list R) := [[0; 0; -4]; [0; -4; 0]; [-4; 0; 0]; [4; 4; 4]].
Definition sq_n : list (list R) := [[0; -2]; [0; 2]; [-2; 0]; [2; 0]].
Definition cube_n : list (list R) := [[0; 0; -4]; [0; 0; 4]; [-4; 0; 0]; [4; 0; 0]; [0; -4; 0]; [0; 4; 0]].
Ltac nrm2 vs := match goal with |- face_normal ?f false = _ => rewrite (normal_2d f false _ _ _ _ _ vs eq_refl eq_refl); cbn [scale nth]; lists_eq; field end.
Ltac nrm3 vs := match goal with |- face_normal ?f false = _ => rewrite (normal_3d f false _ _ _ _ _ _ _ _ _ _ _ vs eq_refl eq_refl); cbn [scale nth]; lists_eq; field end.
Lemma seg_n_ok i f : nth_error simplex1_faces i = Some f -> face_normal f false = Ok (nth i seg_n []).
Proof.
  intros H. destruct i as [|[|i]]; [| |destruct i; discriminate]; cbn in H; injection H as <-; unfold face_normal; cbn.
  - now rewrite sign_m by lra.
  - now rewrite sign_p by lra.
Qed.
Lemma tri_n_ok i f : nth_error simplex2_faces i = Some f -> face_normal f false = Ok (nth i tri_n []).
Proof. intros H. do 3 (destruct i as [|i]; [cbn in H; injection H as <-; unfold tri_n; nrm2 triangle_vertices|]). destruct i; discriminate. Qed.
Lemma tet_n_ok i f : nth_error simplex3_faces i = Some f -> face_normal f false = Ok (nth i tet_n []).
Proof. intros H. do 4 (destruct i as [|i]; [cbn in H; injection H as <-; unfold tet_n; nrm3 tet_vertices|]). destruct i; discriminate. Qed.
Lemma sq_n_ok i f : nth_error cube2_faces i = Some f -> face_normal f false = Ok (nth i sq_n []).
Proof. intros H. do 4 (destruct i as [|i]; [cbn in H; injection H as <-; unfold sq_n; nrm2 cube2_vertices|]). destruct i; discriminate. Qed.
Lemma cube_n_ok i f : nth_error cube3_faces i = Some f -> face_normal f false = Ok (nth i cube_n []).
Proof. intros H. do 6 (destruct i as [|i]; [cbn in H; injection H as <-; unfold cube_n; nrm3 cube3_vertices|]). destruct i; discriminate. Qed.
