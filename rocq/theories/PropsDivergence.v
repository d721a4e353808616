(** * C68: the divergence theorem holds for the code's faces, face maps and normals *)
From Coquelicot Require Import Coquelicot.
From Coq Require Import List Arith Bool ZArith Reals Lra Lia.
From Verif Require Import Py PyToolsModel RSum IntFacts ModelNd ModelShapes ModelSpaces ModelNodes ModelFaces SpecGeometry SpecFaces SpecIntegral SpecIndex SpecPoly SpecPartial
  ProofDirichlet ProofFaces ProofFaces2 PropsFaces ProofMatrices2 ProofUnisolvent ProofGradGood2 PropsQuad ProofDivergence ProofDivergence2.
Import ListNotations.
Local Open Scope R_scope.

(** ** Surface measure of a parametrised face, from the face map alone *)
Definition dot (u v : list R) : R := rsum (fun i => nth i u 0 * nth i v 0) (length u).
(** The j-th tangent vector: the maps are affine (C09), so a unit step gives the derivative. *)
Definition tangent (f : face) (j : nat) : list R :=
  let n := shape_dim (face_shape f) in
  map (fun '(a, b) => a - b) (combine (image f (upd (repeat 0 n) j 1)) (image f (repeat 0 n))).
(** The Gram determinant of the tangents. *)
Definition gram (f : face) : R :=
  match shape_dim (face_shape f) with
  | O => 1
  | 1%nat => dot (tangent f 0) (tangent f 0)
  | _ => dot (tangent f 0) (tangent f 0) * dot (tangent f 1) (tangent f 1) - dot (tangent f 0) (tangent f 1) * dot (tangent f 0) (tangent f 1)
  end.
Definition surface_jacobian (f : face) : R := sqrt (gram f).

Lemma gram_normal s faces i f m : has_faces s -> faces_for_shape s = Ok faces -> nth_error faces i = Some f -> face_normal f false = Ok m ->
  dot m m = (2 ^ (shape_dim s - 1)) ^ 2 * gram f /\ 0 < gram f /\ length m = shape_dim s.
Proof.
  intros H E Hi Hm. destruct (has_faces_cases s H) as [-> | [-> | [-> | [-> | ->]]]].
  - rewrite simplex1_faces_ok in E. assert (faces = simplex1_faces) as -> by congruence. assert (m = nth i seg_n []) as -> by (pose proof (seg_n_ok i f Hi); congruence).
    do 2 (destruct i as [|i]; [cbn in Hi; injection Hi as <-; unfold gram, tangent, image, dot; cbn [face_shape map_to_volume shape_dim]; eval_map; repeat split; lra|]). destruct i; discriminate.
  - rewrite simplex2_faces_ok in E. assert (faces = simplex2_faces) as -> by congruence. assert (m = nth i tri_n []) as -> by (pose proof (tri_n_ok i f Hi); congruence).
    do 3 (destruct i as [|i]; [cbn in Hi; injection Hi as <-; unfold gram, tangent, image, dot; cbn [face_shape map_to_volume shape_dim]; eval_map; repeat split; lra|]). destruct i; discriminate.
  - rewrite simplex3_faces_ok in E. assert (faces = simplex3_faces) as -> by congruence. assert (m = nth i tet_n []) as -> by (pose proof (tet_n_ok i f Hi); congruence).
    do 4 (destruct i as [|i]; [cbn in Hi; injection Hi as <-; unfold gram, tangent, image, dot; cbn [face_shape map_to_volume shape_dim]; eval_map; repeat split; lra|]). destruct i; discriminate.
  - rewrite cube2_faces_ok in E. assert (faces = cube2_faces) as -> by congruence. assert (m = nth i sq_n []) as -> by (pose proof (sq_n_ok i f Hi); congruence).
    do 4 (destruct i as [|i]; [cbn in Hi; injection Hi as <-; unfold gram, tangent, image, dot; cbn [face_shape map_to_volume shape_dim]; eval_map; repeat split; lra|]). destruct i; discriminate.
  - rewrite cube3_faces_ok in E. assert (faces = cube3_faces) as -> by congruence. assert (m = nth i cube_n []) as -> by (pose proof (cube_n_ok i f Hi); congruence).
    do 6 (destruct i as [|i]; [cbn in Hi; injection Hi as <-; unfold gram, tangent, image, dot; cbn [face_shape map_to_volume shape_dim]; eval_map; repeat split; lra|]). destruct i; discriminate.
Qed.
(** The unnormalised normal is the unit normal times surface Jacobian times 2^(d-1). *)
Theorem C68_scaling s faces i f : has_faces s -> faces_for_shape s = Ok faces -> nth_error faces i = Some f ->
  exists n m, face_normal f true = Ok n /\ face_normal f false = Ok m /\ 0 < surface_jacobian f
    /\ forall k, nth k m 0 = 2 ^ (shape_dim s - 1) * surface_jacobian f * nth k n 0.
Proof.
  intros H E Hi. destruct (C10_normals s faces i f H E Hi) as (n & m & c & En & Em & _ & Un & _ & Hc & ->). exists n, (map (Rmult c) n).
  destruct (gram_normal s faces i f _ H E Hi Em) as (G1 & G2 & G3). rewrite map_length in G3.
  destruct (C09_faces s H) as (faces' & E' & _ & HO & _). assert (faces' = faces) by congruence. subst faces'. destruct (HO i f Hi) as (Ev & _). rewrite Ev in Un.
  assert (N : forall i, nth i (map (Rmult c) n) 0 = c * nth i n 0). { intros j. rewrite <- (map_nth (Rmult c)). f_equal. ring. }
  assert (D : dot (map (Rmult c) n) (map (Rmult c) n) = c * c).
  { unfold dot. rewrite map_length, (rsum_ext _ (fun i => c * c * (nth i n 0 * nth i n 0))) by (intros; rewrite N; ring). rewrite rsum_scal, G3, Un. ring. }
  rewrite D in G1. pose proof (pow_lt 2 (shape_dim s - 1) ltac:(lra)) as P2.
  split; [exact En|]. split; [exact Em|]. split; [now apply sqrt_lt_R0|]. intros k. rewrite N. f_equal. unfold surface_jacobian.
  rewrite <- (sqrt_square c) by lra. rewrite G1, sqrt_mult by nra. f_equal. replace ((2 ^ (shape_dim s - 1)) ^ 2) with (2 ^ (shape_dim s - 1) * 2 ^ (shape_dim s - 1)) by ring. apply sqrt_square. lra.
Qed.

(** ** The theorem: for every polynomial F and every axis k,
    int_element dF/dx_k = sum over the faces of n_k * int_face F dS. *)
Theorem C68_divergence s faces F N : has_faces s -> faces_for_shape s = Ok faces -> is_poly (shape_dim s) N F ->
  exists (n : nat -> list R) (w J : nat -> R),
    (forall i f, nth_error faces i = Some f -> face_normal f true = Ok (n i) /\ w i = surface_jacobian f
       /\ is_int (face_shape f) (fun p => F (image f p)) (J i))
    /\ forall k g, (k < shape_dim s)%nat -> (forall x, length x = shape_dim s -> is_derive (fun t => F (upd x k t)) (nth k x 0) (g x)) ->
         is_int s g (rsum (fun i => nth k (n i) 0 * (w i * J i)) (length faces)).
Proof.
  intros H E HP. destruct (divergence s faces F N H E HP) as (ns & Ln & Hn & J & HJ & HD).
  exists (fun i => match nth_error faces i with Some f => match face_normal f true with Ok n => n | Err _ => [] end | None => [] end).
  exists (fun i => match nth_error faces i with Some f => surface_jacobian f | None => 0 end). exists J. split.
  - intros i f Hi. rewrite Hi. destruct (C68_scaling s faces i f H E Hi) as (n & m & En & _). rewrite En. split; [easy|]. split; [easy|]. exact (HJ i f Hi).
  - intros k g Hk Hg. eapply int_cast; [exact (HD k g Hk Hg)|]. apply rsum_ext. intros i Hi.
    destruct (nth_error faces i) as [f|] eqn:Ei; [|apply nth_error_None in Ei; lia].
    destruct (C68_scaling s faces i f H E Ei) as (n & m & En & Em & _ & HS). rewrite En. rewrite (Hn i f Ei) in Em. assert (m = nth i ns []) by congruence. subst m. rewrite HS.
    pose proof (pow_lt 2 (shape_dim s - 1) ltac:(lra)). field. lra.
Qed.

(** Vector fields: the integral of the divergence is the flux. *)
Theorem C68_flux s faces (Fs : nat -> list R -> R) (g : list R -> R) N : has_faces s -> faces_for_shape s = Ok faces ->
  (forall k, (k < shape_dim s)%nat -> is_poly (shape_dim s) N (Fs k)) ->
  (forall k, (k < shape_dim s)%nat -> forall x, length x = shape_dim s -> ex_derive (fun t => Fs k (upd x k t)) (nth k x 0)) ->
  (forall x, length x = shape_dim s -> g x = rsum (fun k => Derive (fun t => Fs k (upd x k t)) (nth k x 0)) (shape_dim s)) ->
  exists (n : nat -> list R) (w J : nat -> R),
    (forall i f, nth_error faces i = Some f -> face_normal f true = Ok (n i) /\ w i = surface_jacobian f
       /\ is_int (face_shape f) (fun p => rsum (fun k => nth k (n i) 0 * Fs k (image f p)) (shape_dim s)) (J i))
    /\ is_int s g (rsum (fun i => w i * J i) (length faces)).
Proof.
  intros H E HP HX Hg. set (d := shape_dim s) in *.
  set (nn := fun i => match nth_error faces i with Some f => match face_normal f true with Ok n => n | Err _ => [] end | None => [] end).
  set (ww := fun i => match nth_error faces i with Some f => surface_jacobian f | None => 0 end).
  assert (G : forall m, (m <= d)%nat -> exists JJ : nat -> R,
    (forall i f, nth_error faces i = Some f -> is_int (face_shape f) (fun p => rsum (fun k => nth k (nn i) 0 * Fs k (image f p)) m) (JJ i))
    /\ is_int s (fun x => rsum (fun k => Derive (fun t => Fs k (upd x k t)) (nth k x 0)) m) (rsum (fun i => ww i * JJ i) (length faces))).
  { induction m as [|m IH]; intros Hm.
    - exists (fun _ => 0). split; [intros; cbn; apply is_int_zero|]. cbn [rsum]. eapply int_cast; [apply is_int_zero|]. symmetry. apply rsum_0. intros; ring.
    - destruct (IH ltac:(lia)) as (JJ & A & B). destruct (C68_divergence s faces (Fs m) N H E (HP m ltac:(lia))) as (n & w & J & HJ & HD).
      exists (fun i => JJ i + nth m (nn i) 0 * J i). split.
      + intros i f Hi. cbn [rsum]. apply is_int_plus; [exact (A i f Hi)|]. apply is_int_scal. now apply HJ.
      + cbn [rsum]. eapply int_cast; [apply is_int_plus; [exact B|]|].
        * apply (HD m (fun x => Derive (fun t => Fs m (upd x m t)) (nth m x 0))); [unfold d in *; lia|]. intros x Hx. apply Derive_correct. apply HX; [lia|exact Hx].
        * rewrite <- rsum_plus. apply rsum_ext. intros i Hi. destruct (nth_error faces i) as [f|] eqn:Ei; [|apply nth_error_None in Ei; lia].
          destruct (HJ i f Ei) as (En & Ew & _). unfold nn, ww. rewrite Ei, En, Ew. ring. }
  destruct (G d ltac:(lia)) as (JJ & A & B). exists nn, ww, JJ. split.
  - intros i f Hi. split; [|split; [unfold ww; now rewrite Hi|exact (A i f Hi)]]. unfold nn. rewrite Hi. destruct (C68_scaling s faces i f H E Hi) as (n & m & En & _). now rewrite En.
  - eapply is_int_ext; [|exact B]. intros x Hx. symmetry. apply Hg. exact (in_shape_len s (has_faces_ok s H) x Hx).
Qed.

(** Integration by parts. *)
Theorem C68_by_parts s faces F G N M k dF dG : has_faces s -> faces_for_shape s = Ok faces -> is_poly (shape_dim s) N F -> is_poly (shape_dim s) M G ->
  (k < shape_dim s)%nat ->
  (forall x, length x = shape_dim s -> is_derive (fun t => F (upd x k t)) (nth k x 0) (dF x)) ->
  (forall x, length x = shape_dim s -> is_derive (fun t => G (upd x k t)) (nth k x 0) (dG x)) ->
  exists (n : nat -> list R) (w J : nat -> R),
    (forall i f, nth_error faces i = Some f -> face_normal f true = Ok (n i) /\ w i = surface_jacobian f
       /\ is_int (face_shape f) (fun p => F (image f p) * G (image f p)) (J i))
    /\ is_int s (fun x => dF x * G x + F x * dG x) (rsum (fun i => nth k (n i) 0 * (w i * J i)) (length faces)).
Proof.
  intros H E PF PG Hk HF HG. destruct (C68_divergence s faces (fun x => F x * G x) (N + M) H E) as (n & w & J & HJ & HD).
  { now apply is_poly_mult. }
  exists n, w, J. split; [exact HJ|]. apply (HD k (fun x => dF x * G x + F x * dG x)); [exact Hk|]. intros x Hx.
  assert (X := is_derive_mult (fun t => F (upd x k t)) (fun t => G (upd x k t)) (nth k x 0) _ _ (HF x Hx) (HG x Hx) Rmult_comm). cbv beta in X. rewrite upd_self in X. exact X.
Qed.

(** The surface is closed: normals weighted with areas add up to zero. *)
Theorem C68_closed s faces : has_faces s -> faces_for_shape s = Ok faces ->
  exists (n : nat -> list R) (area : nat -> R),
    (forall i f, nth_error faces i = Some f -> face_normal f true = Ok (n i) /\ is_int (face_shape f) (fun _ => surface_jacobian f) (area i))
    /\ forall k, (k < shape_dim s)%nat -> rsum (fun i => area i * nth k (n i) 0) (length faces) = 0.
Proof.
  intros H E. destruct (C68_divergence s faces (fun _ => 1) 0 H E) as (n & w & J & HJ & HD).
  { exists [(1, repeat 0%nat (shape_dim s))]. split; [constructor; [|constructor]; cbn [snd]; split; [apply repeat_length|clear; induction (shape_dim s); cbn; lia]|].
    intros x _. unfold polyval. cbn [fold_right fst snd]. rewrite monoval_repeat0. ring. }
  exists n, (fun i => w i * J i). split.
  - intros i f Hi. destruct (HJ i f Hi) as (A & B & C). split; [exact A|]. rewrite B. eapply is_int_ext; [|apply is_int_scal, C]. intros; cbv beta; ring.
  - intros k Hk. assert (X := HD k (fun _ => 0) Hk (fun x _ => @is_derive_const _ _ 1 _)).
    rewrite (rsum_ext _ (fun i => nth k (n i) 0 * (w i * J i))) by (intros; ring). exact (is_int_unique s _ _ _ X (is_int_zero s)).
Qed.

(** ** Non-vacuity: the tetrahedron, F = x y; the slanted face of the triangle has surface Jacobian sqrt 2 *)
Example C68_example : has_faces (Simplex 3) /\ (exists faces, faces_for_shape (Simplex 3) = Ok faces /\ length faces = 4%nat)
  /\ is_poly 3 2 (fun x => nth 0 x 0 * nth 1 x 0).
Proof.
  split; [left; exists 3%nat; split; [easy|lia]|]. split; [eexists; split; [reflexivity|reflexivity]|].
  exists [(1, [1; 1; 0]%nat)]. split; [constructor; [cbn; lia|constructor]|]. intros x Hx. destruct x as [|a [|b [|c [|]]]]; try discriminate. unfold polyval. cbn. ring.
Qed.
Example C68_example_jacobian : exists f, nth_error simplex2_faces 2 = Some f /\ surface_jacobian f = sqrt 2.
Proof.
  eexists. split; [reflexivity|]. unfold surface_jacobian. f_equal. unfold gram, tangent, image, dot. cbn [face_shape map_to_volume shape_dim]. eval_map. lra.
Qed.

Print Assumptions C68_scaling.
Print Assumptions C68_divergence.
Print Assumptions C68_flux.
Print Assumptions C68_by_parts.
Print Assumptions C68_closed.
