(** * Facts for C70: the trace of a polynomial of the space on a face is a polynomial of the face's space *)
From Coquelicot Require Import Coquelicot.
From Coq Require Import List Arith Bool ZArith Reals Lra Lia.
From Verif Require Import Py PyToolsModel RSum IntFacts ModelNd ModelShapes ModelSpaces ModelNodes ModelFaces SpecGeometry SpecFaces SpecIntegral SpecIndex SpecPoly SpecPartial
  ProofFaces ProofFaces2 PropsFaces ProofUnisolvent PropsQuad ProofDivergence ProofDivergence2.
Import ListNotations.
Local Open Scope R_scope.

(** Substituting polynomials of degree one keeps the total degree. *)
Lemma is_poly_mono m X (e : list nat) : (forall i, (i < length e)%nat -> is_poly m 1 (fun p => nth i (X p) 0)) -> (forall p, length p = m -> length (X p) = length e) ->
  is_poly m (fold_right Nat.add 0%nat e) (fun p => monoval e (X p)).
Proof.
  revert X. induction e as [|a e IH]; intros X H L; [exact (is_poly_const m 0 1)|].
  apply (is_poly_ext m _ (fun p => nth 0 (X p) 0 ^ a * monoval e (tl (X p)))).
  - intros p Hp. specialize (L p Hp). destruct (X p) as [|x xs]; [discriminate|]. reflexivity.
  - cbn [fold_right]. apply is_poly_mult.
    + replace a with (a * 1)%nat at 1 by lia. apply (is_poly_pow m 1 (fun p => nth 0 (X p) 0)). apply (H 0%nat). cbn; lia.
    + apply (IH (fun p => tl (X p))).
      * intros i Hi. apply (is_poly_ext m 1 (fun p => nth (S i) (X p) 0)); [intros p _; destruct (X p); [now destruct i|reflexivity]|]. apply H. cbn; lia.
      * intros p Hp. specialize (L p Hp). destruct (X p); [discriminate|]. cbn in *. lia.
Qed.
Lemma is_poly_subst m X d n F : is_poly d n F -> (forall i, (i < d)%nat -> is_poly m 1 (fun p => nth i (X p) 0)) -> (forall p, length p = m -> length (X p) = d) ->
  is_poly m n (fun p => F (X p)).
Proof.
  intros (ts & A & B) H L. apply (is_poly_ext m n (fun p => polyval ts (X p))); [intros p Hp; symmetry; apply B; now apply L|]. clear B.
  induction A as [|t ts [Ht1 Ht2] A IH]; [exact (is_poly_const m n 0)|]. unfold polyval in *. cbn [fold_right].
  apply is_poly_plus; [|exact IH]. apply is_poly_scal. eapply is_poly_weaken; [exact Ht2|]. apply is_poly_mono; rewrite Ht1; assumption.
Qed.
Lemma lin1 c : forall X : list R -> R, (forall p, length p = 0%nat -> X p = c) -> is_poly 0 1 X.
Proof. intros X H. eapply is_poly_ext; [|apply (is_poly_const 0 1 c)]. intros p Hp. symmetry. auto. Qed.
Lemma lin2 c a : forall X : list R -> R, (forall u, X [u] = c + a * u) -> is_poly 1 1 X.
Proof.
  intros X H. apply (is_poly_ext 1 1 (fun p => c + a * nth 0 p 0)); [intros [|u [|]] Hp; try discriminate; symmetry; apply H|].
  apply is_poly_plus; [apply is_poly_const|apply is_poly_scal, is_poly_coord; lia].
Qed.
Lemma lin3 c a b : forall X : list R -> R, (forall u v, X [u; v] = c + a * u + b * v) -> is_poly 2 1 X.
Proof.
  intros X H. apply (is_poly_ext 2 1 (fun p => c + a * nth 0 p 0 + b * nth 1 p 0)); [intros [|u [|v [|]]] Hp; try discriminate; symmetry; apply H|].
  apply is_poly_plus; [apply is_poly_plus; [apply is_poly_const|apply is_poly_scal, is_poly_coord; lia]|apply is_poly_scal, is_poly_coord; lia].
Qed.

(** The images, explicitly. *)
Definition face_len (f : face) (d : nat) := forall p, length p = shape_dim (face_shape f) -> length (image f p) = d.
Ltac len_tac := intros p Hp; cbn [face_shape shape_dim] in Hp; repeat (destruct p as [|? p]; try discriminate Hp); reflexivity.
Lemma tri_images i f : nth_error simplex2_faces i = Some f -> face_shape f = Simplex 1 /\ face_len f 2
  /\ exists c0 a0 c1 a1, forall u, image f [u] = [c0 + a0 * u; c1 + a1 * u].
Proof.
  intros H. destruct i as [|[|[|i]]]; [| | |destruct i; discriminate]; cbn in H; injection H as <-; (split; [reflexivity|]; split; [len_tac|]).
  - exists 0, 1, (-1), 0. intros u. unfold image. cbn [map_to_volume]. eval_map. lists_eq; field.
  - exists (-1), 0, 0, (-1). intros u. unfold image. cbn [map_to_volume]. eval_map. lists_eq; field.
  - exists 0, (-1), 0, 1. intros u. unfold image. cbn [map_to_volume]. eval_map. lists_eq; field.
Qed.
Lemma sq_images i f : nth_error cube2_faces i = Some f -> face_shape f = Simplex 1 /\ face_len f 2
  /\ exists r s, (forall u, image f [u] = [r; s * u]) \/ (forall u, image f [u] = [s * u; r]).
Proof.
  intros H. destruct i as [|[|[|[|i]]]]; [| | | |destruct i; discriminate]; cbn in H; injection H as <-; (split; [reflexivity|]; split; [len_tac|]).
  - exists (-1), 1. right. intros u. unfold image. cbn [map_to_volume]. eval_map. lists_eq; field.
  - exists 1, (-1). right. intros u. unfold image. cbn [map_to_volume]. eval_map. lists_eq; field.
  - exists (-1), (-1). left. intros u. unfold image. cbn [map_to_volume]. eval_map. lists_eq; field.
  - exists 1, 1. left. intros u. unfold image. cbn [map_to_volume]. eval_map. lists_eq; field.
Qed.
Lemma tet_images i f : nth_error simplex3_faces i = Some f -> face_shape f = Simplex 2 /\ face_len f 3
  /\ exists c0 a0 b0 c1 a1 b1 c2 a2 b2, forall u v, image f [u; v] = [c0 + a0 * u + b0 * v; c1 + a1 * u + b1 * v; c2 + a2 * u + b2 * v].
Proof.
  intros H. destruct i as [|[|[|[|i]]]]; [| | | |destruct i; discriminate]; cbn in H; injection H as <-; (split; [reflexivity|]; split; [len_tac|]).
  - exists 0, 0, 1, 0, 1, 0, (-1), 0, 0. intros u v. unfold image. cbn [map_to_volume]. eval_map. lists_eq; field.
  - exists 0, 1, 0, (-1), 0, 0, 0, 0, 1. intros u v. unfold image. cbn [map_to_volume]. eval_map. lists_eq; field.
  - exists (-1), 0, 0, 0, 0, 1, 0, 1, 0. intros u v. unfold image. cbn [map_to_volume]. eval_map. lists_eq; field.
  - exists (-1), (-1), (-1), 0, 1, 0, 0, 0, 1. intros u v. unfold image. cbn [map_to_volume]. eval_map. lists_eq; field.
Qed.
Lemma cube_images i f : nth_error cube3_faces i = Some f -> face_shape f = TPShape CHypercube 2 [Simplex 1; Simplex 1] /\ face_len f 3
  /\ exists r, (forall u v, image f [u; v] = [r; u; v]) \/ (forall u v, image f [u; v] = [u; r; v]) \/ (forall u v, image f [u; v] = [u; v; r])
            \/ (forall u v, image f [u; v] = [r; v; u]) \/ (forall u v, image f [u; v] = [v; r; u]) \/ (forall u v, image f [u; v] = [v; u; r]).
Proof.
  intros H. destruct i as [|[|[|[|[|[|i]]]]]]; [| | | | | |destruct i; discriminate]; cbn in H; injection H as <-; (split; [reflexivity|]; split; [len_tac|]).
  - exists (-1). do 5 right. intros u v. unfold image. cbn [map_to_volume]. eval_map. lists_eq; field.
  - exists 1. do 2 right. left. intros u v. unfold image. cbn [map_to_volume]. eval_map. lists_eq; field.
  - exists (-1). do 3 right. left. intros u v. unfold image. cbn [map_to_volume]. eval_map. lists_eq; field.
  - exists 1. left. intros u v. unfold image. cbn [map_to_volume]. eval_map. lists_eq; field.
  - exists (-1). right. left. intros u v. unfold image. cbn [map_to_volume]. eval_map. lists_eq; field.
  - exists 1. do 4 right. left. intros u v. unfold image. cbn [map_to_volume]. eval_map. lists_eq; field.
Qed.
Lemma seg_images i f : nth_error simplex1_faces i = Some f -> face_shape f = Simplex 0 /\ face_len f 1 /\ exists c, image f [] = [c].
Proof.
  intros H. destruct i as [|[|i]]; [| |destruct i; discriminate]; cbn in H; injection H as <-; (split; [reflexivity|]; split; [len_tac|]); eexists; reflexivity.
Qed.

(** ** Traces *)
Lemma in_space_terms sp fsp m X F : in_space sp F -> (forall e, space_exp sp e -> in_space fsp (fun p => monoval e (X p))) ->
  spatial_dim fsp = m -> (forall p, length p = m -> length (X p) = spatial_dim sp) -> in_space fsp (fun p => F (X p)).
Proof.
  intros (ts & A & B) H Em L. apply (in_space_ext fsp (fun p => polyval ts (X p))); [intros p Hp; symmetry; apply B, L; congruence|]. clear B.
  induction A as [|t ts Ht A IH]; [exists []; split; [constructor|reflexivity]|]. unfold polyval in *. cbn [fold_right].
  apply in_space_plus; [apply in_space_scal; now apply H|exact IH].
Qed.
Lemma tp_exp2 c n e : space_exp (TPSpace c [PN 1 n; PN 1 n]) e -> exists a b, e = [a; b] /\ (a <= n)%nat /\ (b <= n)%nat.
Proof.
  intros H. inversion H as [|? ? es HF]; subst. inversion HF as [|? e1 ? es1 H1 HF1]; subst. inversion HF1 as [|? e2 ? es2 H2 HF2]; subst. inversion HF2; subst.
  inversion H1; inversion H2; subst. destruct e1 as [|a [|]]; try discriminate. destruct e2 as [|b [|]]; try discriminate. exists a, b. unfold total in *. cbn in *. repeat split; lia.
Qed.
Lemma tp_exp3 c n e : space_exp (TPSpace c [PN 1 n; PN 1 n; PN 1 n]) e -> exists a b d, e = [a; b; d] /\ (a <= n)%nat /\ (b <= n)%nat /\ (d <= n)%nat.
Proof.
  intros H. inversion H as [|? ? es HF]; subst. inversion HF as [|? e1 ? es1 H1 HF1]; subst. inversion HF1 as [|? e2 ? es2 H2 HF2]; subst.
  inversion HF2 as [|? e3 ? es3 H3 HF3]; subst. inversion HF3; subst. inversion H1; inversion H2; inversion H3; subst.
  destruct e1 as [|a [|]]; try discriminate. destruct e2 as [|b [|]]; try discriminate. destruct e3 as [|d [|]]; try discriminate. exists a, b, d. unfold total in *. cbn in *. repeat split; lia.
Qed.
Lemma in_pn1 n k c X : (k <= n)%nat -> (forall u, X [u] = c * u ^ k) -> in_space (PN 1 n) X.
Proof.
  intros Hk H. exists [(c, [k])]. split; [constructor; [|constructor]; cbn [snd]; constructor; [reflexivity|unfold total; cbn; lia]|].
  intros [|u [|]] Hu; try discriminate. rewrite H. unfold polyval. cbn. ring.
Qed.
Lemma in_tp2 t n k l c X : (k <= n)%nat -> (l <= n)%nat -> (forall u v, X [u; v] = c * u ^ k * v ^ l) -> in_space (TPSpace t [PN 1 n; PN 1 n]) X.
Proof.
  intros Hk Hl H. exists [(c, [k; l])]. split.
  - constructor; [|constructor]. cbn [snd]. apply (se_tp t [PN 1 n; PN 1 n] [[k]; [l]]). repeat constructor; unfold total; cbn; lia.
  - intros [|u [|v [|]]] Hu; try discriminate. rewrite H. unfold polyval. cbn. ring.
Qed.
Lemma square_space n : exists t, space_for_shape (TPShape CHypercube 2 [Simplex 1; Simplex 1]) (OInt n) = Ok (TPSpace t [PN 1 n; PN 1 n]).
Proof. eexists. reflexivity. Qed.
Lemma cube_space n : exists t, space_for_shape (TPShape CHypercube 3 [Simplex 1; Simplex 1; Simplex 1]) (OInt n) = Ok (TPSpace t [PN 1 n; PN 1 n; PN 1 n]).
Proof. eexists. reflexivity. Qed.

Lemma trace s faces i f n sp fsp F : has_faces s -> faces_for_shape s = Ok faces -> nth_error faces i = Some f ->
  space_for_shape s (OInt n) = Ok sp -> space_for_shape (face_shape f) (OInt n) = Ok fsp -> in_space sp F -> in_space fsp (fun p => F (image f p)).
Proof.
  intros H E Hi Es Ef HF. destruct (has_faces_cases s H) as [-> | [-> | [-> | [-> | ->]]]].
  - rewrite simplex1_faces_ok in E. assert (faces = simplex1_faces) as -> by congruence. destruct (seg_images i f Hi) as (S1 & L & c & HI). rewrite S1 in Ef. injection Es as <-. injection Ef as <-.
    unfold face_len in L. rewrite S1 in L. apply in_space_pn. apply in_space_pn in HF. apply (is_poly_subst 0 (image f) 1 n F HF); [|exact L].
    intros j Hj. destruct j; [|lia]. apply (lin1 c). intros [|] Hp; [|discriminate]. now rewrite HI.
  - rewrite simplex2_faces_ok in E. assert (faces = simplex2_faces) as -> by congruence. destruct (tri_images i f Hi) as (S1 & L & c0 & a0 & c1 & a1 & HI). rewrite S1 in Ef. injection Es as <-. injection Ef as <-.
    unfold face_len in L. rewrite S1 in L. apply in_space_pn. apply in_space_pn in HF. apply (is_poly_subst 1 (image f) 2 n F HF); [|exact L].
    intros j Hj. destruct j as [|[|j]]; [apply (lin2 c0 a0)|apply (lin2 c1 a1)|lia]; intros u; now rewrite HI.
  - rewrite simplex3_faces_ok in E. assert (faces = simplex3_faces) as -> by congruence. destruct (tet_images i f Hi) as (S1 & L & c0 & a0 & b0 & c1 & a1 & b1 & c2 & a2 & b2 & HI). rewrite S1 in Ef. injection Es as <-. injection Ef as <-.
    unfold face_len in L. rewrite S1 in L. apply in_space_pn. apply in_space_pn in HF. apply (is_poly_subst 2 (image f) 3 n F HF); [|exact L].
    intros j Hj. destruct j as [|[|[|j]]]; [apply (lin3 c0 a0 b0)|apply (lin3 c1 a1 b1)|apply (lin3 c2 a2 b2)|lia]; intros u v; now rewrite HI.
  - rewrite cube2_faces_ok in E. assert (faces = cube2_faces) as -> by congruence. destruct (sq_images i f Hi) as (S1 & L & r & z & HI). rewrite S1 in Ef. injection Ef as <-.
    destruct (square_space n) as (t & Et). assert (sp = TPSpace t [PN 1 n; PN 1 n]) as -> by (assert (X := eq_trans (eq_sym Es) Et); injection X; auto).
    apply (in_space_terms (TPSpace t [PN 1 n; PN 1 n]) (PN 1 n) 1 (image f) F HF); [|reflexivity|unfold face_len in L; rewrite S1 in L; exact L].
    intros e He. destruct (tp_exp2 _ _ _ He) as (a & b & -> & Ha & Hb). destruct HI as [HI|HI].
    + apply (in_pn1 n b (r ^ a * z ^ b)); [lia|]. intros u. rewrite HI. cbn [monoval]. rewrite Rpow_mult_distr. ring.
    + apply (in_pn1 n a (r ^ b * z ^ a)); [lia|]. intros u. rewrite HI. cbn [monoval]. rewrite Rpow_mult_distr. ring.
  - rewrite cube3_faces_ok in E. assert (faces = cube3_faces) as -> by congruence. destruct (cube_images i f Hi) as (S1 & L & r & HI). rewrite S1 in Ef.
    destruct (square_space n) as (t2 & Et2). assert (fsp = TPSpace t2 [PN 1 n; PN 1 n]) as -> by congruence.
    destruct (cube_space n) as (t & Et). assert (sp = TPSpace t [PN 1 n; PN 1 n; PN 1 n]) as -> by (assert (X := eq_trans (eq_sym Es) Et); injection X; auto).
    apply (in_space_terms (TPSpace t [PN 1 n; PN 1 n; PN 1 n]) (TPSpace t2 [PN 1 n; PN 1 n]) 2 (image f) F HF); [|reflexivity|unfold face_len in L; rewrite S1 in L; exact L].
    intros e He. destruct (tp_exp3 _ _ _ He) as (a & b & d & -> & Ha & Hb & Hd). destruct HI as [HI|[HI|[HI|[HI|[HI|HI]]]]].
    + apply (in_tp2 t2 n b d (r ^ a)); [lia|lia|]. intros u v. rewrite HI. cbn [monoval]. ring.
    + apply (in_tp2 t2 n a d (r ^ b)); [lia|lia|]. intros u v. rewrite HI. cbn [monoval]. ring.
    + apply (in_tp2 t2 n a b (r ^ d)); [lia|lia|]. intros u v. rewrite HI. cbn [monoval]. ring.
    + apply (in_tp2 t2 n d b (r ^ a)); [lia|lia|]. intros u v. rewrite HI. cbn [monoval]. ring.
    + apply (in_tp2 t2 n d a (r ^ b)); [lia|lia|]. intros u v. rewrite HI. cbn [monoval]. ring.
    + apply (in_tp2 t2 n b a (r ^ d)); [lia|lia|]. intros u v. rewrite HI. cbn [monoval]. ring.
Qed.
Lemma image_ok s faces i f p : has_faces s -> faces_for_shape s = Ok faces -> nth_error faces i = Some f -> length p = shape_dim (face_shape f) ->
  map_to_volume f p = Ok (image f p) /\ length (image f p) = shape_dim s.
Proof.
  intros H E Hi Hp. assert (X : exists x, map_to_volume f p = Ok x /\ length x = shape_dim s).
  { destruct (has_faces_cases s H) as [-> | [-> | [-> | [-> | ->]]]].
    - rewrite simplex1_faces_ok in E. assert (faces = simplex1_faces) as -> by congruence.
      destruct i as [|[|i]]; [| |destruct i; discriminate]; cbn in Hi; injection Hi as <-; cbn in Hp; repeat (destruct p as [|? p]; try discriminate Hp); (eexists; split; reflexivity).
    - rewrite simplex2_faces_ok in E. assert (faces = simplex2_faces) as -> by congruence.
      destruct i as [|[|[|i]]]; [| | |destruct i; discriminate]; cbn in Hi; injection Hi as <-; cbn in Hp; repeat (destruct p as [|? p]; try discriminate Hp); (eexists; split; reflexivity).
    - rewrite simplex3_faces_ok in E. assert (faces = simplex3_faces) as -> by congruence.
      destruct i as [|[|[|[|i]]]]; [| | | |destruct i; discriminate]; cbn in Hi; injection Hi as <-; cbn in Hp; repeat (destruct p as [|? p]; try discriminate Hp); (eexists; split; reflexivity).
    - rewrite cube2_faces_ok in E. assert (faces = cube2_faces) as -> by congruence.
      destruct i as [|[|[|[|i]]]]; [| | | |destruct i; discriminate]; cbn in Hi; injection Hi as <-; cbn in Hp; repeat (destruct p as [|? p]; try discriminate Hp); (eexists; split; reflexivity).
    - rewrite cube3_faces_ok in E. assert (faces = cube3_faces) as -> by congruence.
      destruct i as [|[|[|[|[|[|i]]]]]]; [| | | | | |destruct i; discriminate]; cbn in Hi; injection Hi as <-; cbn in Hp; repeat (destruct p as [|? p]; try discriminate Hp); (eexists; split; reflexivity). }
  destruct X as (x & Ex & Lx). unfold image. rewrite Ex. auto.
Qed.
