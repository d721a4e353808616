(** * C35, C36: Grundmann-Moeller rules *)
From Coquelicot Require Import Coquelicot.
From Coq Require Import List Arith Bool ZArith Reals Lra Lia.
From Verif Require Import Py PyToolsModel ModelShapes ModelSpaces ModelNodes ModelModes ModelQuad ModelGM.
From Verif Require Import RSum SpecIndex SpecGeometry SpecPoly SpecIntegral ProofEuclid ProofDirichlet ProofGM ProofEquispaced.
Import ListNotations.
Local Open Scope R_scope.

(** ** C35 *)

(** Construction never fails. *)
Theorem C35_defined s d : exists q, gm_quad s d = Ok q.
Proof.
  destruct (Nat.eq_dec d 0) as [->|Hd]; [eexists; reflexivity|].
  destruct (gm_quad_pos s d ltac:(lia)) as (dict & _ & _ & E). rewrite E. eexists; reflexivity.
Qed.
(** Every integrand that takes the values of a polynomial of total degree at most
    2s+1 at the nodes of the rule is integrated to the integral of the polynomial. *)
Theorem C35_exact s d q phi f : gm_quad s d = Ok q -> is_poly d (2 * s + 1) phi ->
  (forall x, In x (q_nodes q) -> f x = Ok (phi x)) ->
  exists v, is_int (Simplex d) phi v /\ q_call q f = Ok v.
Proof. apply gm_exact. Qed.
Theorem C35_exact_to s d q : gm_quad s d = Ok q -> (0 < d)%nat -> exact_to q = Ok (degree (2 * s + 1)).
Proof.
  intros E Hd. destruct (gm_quad_pos s d Hd) as (dict & _ & _ & E'). rewrite E in E'. injection E' as ->. reflexivity.
Qed.
Theorem C35_nodes s d q : gm_quad s d = Ok q ->
  length (q_weights q) = length (q_nodes q) /\ forall x, In x (q_nodes q) -> in_shape (Simplex d) x.
Proof.
  intros E. destruct (Nat.eq_dec d 0) as [->|Hd].
  - injection E as <-. split; [reflexivity|]. intros x [<-|[]]. split; [reflexivity|]. split; [constructor|]. cbn. lra.
  - destruct (gm_quad_pos s d ltac:(lia)) as (dict & _ & G & E'). rewrite E in E'. injection E' as ->. cbn [q_nodes q_weights].
    split; [now rewrite !map_length|]. intros x Hx. apply in_map_iff in Hx. destruct Hx as ((k, w) & <- & Hk). apply good_node_in. apply G.
    apply in_map_iff. exists (k, w). now split.
Qed.
(** In particular the weights sum to the volume of the simplex. *)
Theorem C35_volume s d q : gm_quad s d = Ok q -> list_sum (q_weights q) = 2 ^ d / INR (fact d).
Proof.
  intros E. destruct (C35_exact s d q (fun _ => 1) (fun _ => Ok 1) E) as (v & Hv & Hq).
  - exists [(1, repeat 0%nat d)]. split.
    + constructor; [|constructor]. cbn [snd]. split; [apply repeat_length|]. clear. induction d; cbn; [lia|]. cbn in *. lia.
    + intros x Hx. unfold polyval. cbn [fold_right fst snd]. rewrite monoval_repeat0. ring.
  - reflexivity.
  - assert (HI : is_int (Simplex d) (fun _ => 1) (2 ^ d / INR (fact d))).
    { pose proof (dirichlet_ref d (repeat 0%nat d) (repeat_length _ _)) as H.
      assert (T0 : total (repeat 0%nat d) = 0%nat) by (unfold total; clear; induction d; cbn; easy).
      assert (P1 : prodfact (repeat 0%nat d) = 1).
      { clear. induction d; [reflexivity|]. cbn [repeat]. rewrite prodfact_cons, IHd. cbn. ring. }
      rewrite T0, P1 in H. replace (2 ^ d / INR (fact d)) with (2 ^ d * (1 / INR (fact (0 + d)))).
      - eapply is_int_ext; [|exact H]. intros x _. cbv beta. now rewrite monoval_repeat0.
      - rewrite Nat.add_0_l. pose proof (INR_fact_neq_0 d). field. easy. }
    rewrite <- (is_int_unique _ _ _ _ Hv HI).
    unfold q_call in Hq. rewrite (EnumFacts.mapM_Ok _ (fun _ => 1)) in Hq by reflexivity. cbn [bind] in Hq. rewrite map_length in Hq.
    destruct (C35_nodes s d q E) as [L _]. rewrite L, Nat.eqb_refl in Hq. injection Hq as <-.
    generalize (q_nodes q) L. generalize (q_weights q). clear. unfold dotR, list_sum.
    induction l as [|w l IH]; intros [|x xs] L; try discriminate; [reflexivity|]. cbn [map combine fold_right fst snd]. rewrite (IH xs) by (cbn in L; lia). ring.
Qed.
(** The cubic x^3 on the interval. *)
Example C35_example : exists q, gm_quad 1 1 = Ok q /\ is_poly 1 (2 * 1 + 1) (fun x => nth 0 x 0 ^ 3)
  /\ length (q_nodes q) = 3%nat.
Proof.
  eexists. split; [reflexivity|]. split; [|reflexivity]. exists [(1, [3%nat])]. split.
  - constructor; [|constructor]. cbn. split; [reflexivity|lia].
  - intros [|c [|]] H; try discriminate. unfold polyval. cbn. ring.
Qed.

(** ** C36 *)
Local Open Scope Z_scope.
(** Bezout identity, and the first component is the greatest common divisor up to sign. *)
Theorem C36_euclid q r : exists p a b, extended_euclidean q r = Ok (p, a, b) /\ p = a * q + b * r /\ Z.abs p = Z.gcd q r.
Proof. destruct (extended_euclidean_ok q r) as (p & a & b & H1 & H2 & H3 & _). exists p, a, b. easy. Qed.
(** Value preserved ([a * b' = a' * b]) and coprime, for every fraction other than 0/0. *)
Theorem C36_simplify a b : (a, b) <> (0, 0) ->
  exists a' b', simplify_fraction (a, b) = Ok (a', b') /\ a * b' = a' * b /\ Z.gcd a' b' = 1.
Proof.
  intros H. destruct (simplify_ok a b H) as (g & a' & b' & E & Ea & Eb & G & _). exists a', b'. split; [easy|]. split; [|easy]. subst. ring.
Qed.
Theorem C36_zero_over_zero : simplify_fraction (0, 0) = Err ZeroDivision.
Proof. reflexivity. Qed.
(** Two fractions simplify to the same pair exactly when they are equal as fractions. *)
Theorem C36_canonical a b c d : (a, b) <> (0, 0) -> (c, d) <> (0, 0) ->
  (simplify_fraction (a, b) = simplify_fraction (c, d) <-> a * d = c * b).
Proof. apply simplify_canonical. Qed.
(** Equal points merge: no node occurs twice in a rule. *)
Theorem C36_distinct_nodes s d q : gm_quad s d = Ok q -> NoDup (q_nodes q).
Proof.
  intros E. destruct (Nat.eq_dec d 0) as [->|Hd].
  - injection E as <-. repeat constructor. easy.
  - destruct (gm_quad_pos s d ltac:(lia)) as (dict & _ & [N G] & E'). rewrite E in E'. injection E' as ->. cbn [q_nodes].
    rewrite <- (map_map fst (fun k => map (fun l => 2 * l - 1)%R (tl (lam k)))).
    apply NoDup_map_inj_in; [|easy]. intros k k' Hk Hk' EE. apply (good_node_inj d); auto.
Qed.
(** (6, 4) and (-9, -6) have the common form (3, 2). *)
Example C36_example : simplify_fraction (6, 4) = Ok (3, 2) /\ simplify_fraction (-9, -6) = Ok (3, 2)
  /\ extended_euclidean 6 4 = Ok (2, 1, -1).
Proof. repeat split. Qed.
Example C36_example2 : (6, 4) <> (0, 0) /\ (-9, -6) <> (0, 0).
Proof. split; discriminate. Qed.
(** Merging does happen: the centroid of the triangle occurs for i = 1 and i = 4 when s = 4. *)
Example C36_example3 : gm_point 4 2 1 [1; 1; 1]%nat = gm_point 4 2 4 [0; 0; 0]%nat.
Proof. reflexivity. Qed.

Print Assumptions C35_defined.
Print Assumptions C35_exact.
Print Assumptions C35_exact_to.
Print Assumptions C35_nodes.
Print Assumptions C35_volume.
Print Assumptions C36_euclid.
Print Assumptions C36_simplify.
Print Assumptions C36_zero_over_zero.
Print Assumptions C36_canonical.
Print Assumptions C36_distinct_nodes.
