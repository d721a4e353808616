(** * C38: Gauss-Lobatto rules *)
From Coquelicot Require Import Coquelicot.
From Coq Require Import List Arith Bool ZArith QArith Reals Lra Lia FinFun.
From Verif Require Import Py RSum PyToolsModel ModelNd ModelShapes ModelNodes ModelModes ModelQuad ModelGauss ProofGamma.
From Verif Require Import SpecPoly ProofJacobi ProofJacobi2 ProofJacobiOrtho ProofBetaReal ProofQuad ProofPoly1 ProofGauss ProofGaussExist ProofGauss2 ProofGauss3
  ProofLobatto ProofLobatto2 PropsGauss.
Import ListNotations.
Local Open Scope R_scope.

(** The eigenvalue routine is used for the interior nodes only, i.e. for N >= 2. *)
Definition lobatto_eigh (eigh : eigh_t) (a b : R) (N : nat) : Prop := (2 <= N)%nat -> eigh_at eigh (a + 1) (b + 1) (N - 2).

Lemma small_ok : / 10 ^ 14 <= 1 / 2.
Proof. replace (1 / 2) with (/ 2) by field. apply Rinv_le_contravar; lra. Qed.
Lemma params11 : gauss_params (0 + 1) (0 + 1).
Proof. pose proof small_ok. split; [lra|]. split; [lra|]. right. split; [left|]; rewrite Rabs_right by lra; lra. Qed.

(** The rule in normal form: m = N - 1 interior nodes and the weight formula. *)
Lemma lobatto_shape eigh rj n be force : lobatto_eigh eigh 0 0 (S n) -> builtin be ->
  exists lam w, legendre_gauss_lobatto eigh rj (S n) be force
      = Ok (mkQuad (negb force) 1 (map (fun x => [x]) (-1 :: map lam (seq 0 n) ++ [1]))
          (2 / ((INR n + 1) * (INR n + 2)) :: map w (seq 0 n) ++ [2 / ((INR n + 1) * (INR n + 2))]) (Some (degree (2 * n + 1))))
    /\ (forall i, (i < n)%nat -> -1 < lam i < 1) /\ (forall i j, (i < n)%nat -> (j < n)%nat -> lam i = lam j -> i = j)
    /\ (forall i, (i < n)%nat -> D n (lam i) = 0) /\ (forall i, (i < n)%nat -> 0 < w i)
    /\ (forall s, (1 <= n)%nat -> poly1 (2 * n - 1) s ->
          is_RInt (fun x => (1 - x) * (1 + x) * s x) (-1) 1 (rsum (fun i => w i * ((1 - lam i) * (1 + lam i) * s (lam i))) n)).
Proof.
  intros HE HB. unfold legendre_gauss_lobatto, jacobi_gauss_lobatto, jgl_nodes. cbn [Nat.eqb].
  destruct n as [|M].
  - exists (fun _ => 0), (fun _ => 0). cbn [Nat.ltb Nat.leb bind fst app tl removelast Nat.add Nat.sub Nat.mul seq map negb].
    rewrite edge00. split; [reflexivity|]. split; [intros; lia|]. split; [intros; lia|]. split; [intros; lia|]. split; [intros; lia|]. intros; lia.
  - change (1 <? S (S M))%nat with true. cbv iota. replace (S (S M) - 2)%nat with M by lia.
    assert (HE' : eigh_at eigh (0 + 1) (0 + 1) M). { replace M with (S (S M) - 2)%nat by lia. apply HE. lia. }
    destruct (gauss_shape eigh rj (0 + 1) (0 + 1) M be true params11 (fun _ => HE') HB) as (lam & V & Dec & E).
    rewrite E. cbn [bind]. clear E. replace (0 + 1) with 1 in * by ring.
    assert (HA : forall n, 0 < A 1 1 n) by (intros k; apply A_pos; lra).
    assert (H0 : kap 1 1 0 <> 0) by (apply kap0_ne; lra).
    assert (HR0 := jp_rec0 1 1 ltac:(lra) ltac:(lra)). assert (HRS := jp_recS 1 1 ltac:(lra) ltac:(lra)).
    assert (Hroot : forall i, (i < S M)%nat -> D (S M) (lam i) = 0).
    { intros i Hi. pose proof (node_root (jp 1 1) (A 1 1) (bcoef 1 1) (kap 1 1 0) HA H0 (jp0 1 1) HR0 HRS M lam V Dec i Hi) as Z.
      rewrite jp11 in Z. pose proof (kap_pos 1 1 (S M) ltac:(lra) ltac:(lra)). apply Rmult_integral in Z. destruct Z; [lra|easy]. }
    assert (Hin : forall i, (i < S M)%nat -> -1 < lam i < 1).
    { intros i Hi. apply (nodes_inside (jp 1 1) (A 1 1) (bcoef 1 1) (kap 1 1 0) HA H0 (jp0 1 1) HR0 HRS
        (fun n => jp_end 1 1 ltac:(lra) ltac:(lra) n) (fun n => jp_endm 1 1 n ltac:(lra) ltac:(lra)) M lam V Dec). lia. }
    assert (HW : forall i, (i < S M)%nat -> P (S (S M)) (lam i) <> 0 /\ gw (kap 1 1 0) V i / (1 - lam i ^ 2) = 2 / ((INR M + 2) * (INR M + 3) * P (S (S M)) (lam i) ^ 2)).
    { intros i Hi. apply lobatto_weight; auto.
      apply (gw_christoffel (jp 1 1) (A 1 1) (bcoef 1 1) (kap 1 1 0) HA H0 (jp0 1 1) HR0 HRS M lam V Dec i Hi). }
    assert (HI : forall i, (i < S M)%nat -> jgl_inner 0 0 (S M) (lam i) = gw (kap 1 1 0) V i / (1 - lam i ^ 2)).
    { intros i Hi. destruct (HW i Hi) as [Z ->]. rewrite inner00 by auto. rewrite S_INR. do 2 f_equal. ring. }
    assert (H2 : forall i, (i < S M)%nat -> 0 < 1 - lam i ^ 2) by (intros i Hi; pose proof (Hin i Hi); cbn [pow]; nra).
    exists lam, (fun i => gw (kap 1 1 0) V i / (1 - lam i ^ 2)).
    split; [|split; [exact Hin|split; [|split; [exact Hroot|split]]]].
    + assert (EI : map (fun c : list R => nth 0 c 0) (map (fun x : R => [x]) (map lam (seq 0 (S M)))) = map lam (seq 0 (S M))) by (rewrite map_map; apply map_id).
      cbn [q_nodes]. rewrite EI. cbn [fst tl].
      replace (S (S M) + 1 <? 2)%nat with false by (symmetry; apply Nat.ltb_ge; lia).
      rewrite removelast_last. replace (S (S M) - 1)%nat with (S M) by lia. rewrite edge00. rewrite map_map.
      replace (2 * S (S M) - 1)%nat with (2 * S M + 1)%nat by lia. do 3 f_equal. f_equal. apply map_ext_in. intros i Hi. apply in_seq in Hi. apply HI. lia.
    + intros i j Hi Hj. now apply (nodes_distinct (jp 1 1) (A 1 1) (bcoef 1 1) (kap 1 1 0) HA H0 (jp0 1 1) HR0 HRS M lam V Dec).
    + intros i Hi. apply Rdiv_lt_0_compat; [|auto]. now apply (gw_pos (jp 1 1) (A 1 1) (bcoef 1 1) (kap 1 1 0) HA H0 (jp0 1 1) HR0 HRS M lam V Dec).
    + intros s _ Hs. replace (2 * S M - 1)%nat with (2 * M + 1)%nat in Hs by lia.
      destruct Hs as (c & Ec).
      assert (G : IntN 1 1 (fun x => rsum (fun k => c k * x ^ k) (S (2 * M + 1))) (grule (kap 1 1 0) M lam V (fun x => rsum (fun k => c k * x ^ k) (S (2 * M + 1))))).
      { apply (gauss_poly (jp 1 1) (A 1 1) (bcoef 1 1) (kap 1 1 0) HA H0 (jp0 1 1) HR0 HRS M lam V Dec (IntN 1 1) (IntN_ext 1 1) (IntN_plus 1 1) (IntN_scal 1 1)); [|lia].
        intros m k. eapply is_RInt_ext; [|apply (jacobi_orthonormal_nat 1 1 m k)].
        intros x _. cbv beta. change (INR 1) with 1. now rewrite !jacobi_jp by first [lra|apply jac_gamma0_pos; lra]. }
      unfold IntN, wnat in G. unfold grule in G.
      replace (rsum (fun i => gw (kap 1 1 0) V i / (1 - lam i ^ 2) * ((1 - lam i) * (1 + lam i) * s (lam i))) (S M))
        with (rsum (fun i => gw (kap 1 1 0) V i * rsum (fun k => c k * lam i ^ k) (S (2 * M + 1))) (S M)).
      * eapply is_RInt_ext; [|exact G]. intros x _. req. cbv beta. rewrite Ec. ring.
      * apply rsum_ext. intros i Hi. rewrite Ec. pose proof (H2 i Hi). field. cbn [pow] in *. lra.
Qed.
Lemma dotR_cons a b l m : dotR (a :: l) (b :: m) = a * b + dotR l m. Proof. reflexivity. Qed.
Lemma lrule_of_lists n lam w flat ex phi :
  rule (mkQuad flat 1 (map (fun x => [x]) (-1 :: map lam (seq 0 n) ++ [1]))
          (2 / ((INR n + 1) * (INR n + 2)) :: map w (seq 0 n) ++ [2 / ((INR n + 1) * (INR n + 2))]) ex) phi = lrule n n lam w (fun x => phi [x]).
Proof.
  unfold rule, lrule. cbn [q_weights q_nodes map]. rewrite dotR_cons, Rplus_assoc. f_equal.
  rewrite <- lsum_seq. set (e := 2 / _). clearbody e. generalize (seq 0 n). intros l. induction l as [|i l IH].
  - unfold dotR, ProofGM.lsum, SpecGeometry.list_sum. cbn [map combine fold_right fst snd app]. ring.
  - cbn [map app]. rewrite dotR_cons, IH, ProofGM.lsum_cons. ring.
Qed.

(** LegendreGaussLobattoQuadrature(N): exact for degree 2N-1, any N >= 1. *)
Theorem C38_legendre_exact (N : nat) eigh rj be force q phi :
  lobatto_eigh eigh 0 0 N -> builtin be ->
  legendre_gauss_lobatto eigh rj N be force = Ok q -> is_poly 1 (2 * N - 1) phi ->
  exists v : R, is_RInt (fun x => phi [x]) (-1) 1 v /\ q_call q (fun x => Ok (phi x)) = Ok v.
Proof.
  intros HE HB E Hp. destruct N as [|n]; [discriminate|]. replace (2 * S n - 1)%nat with (2 * n + 1)%nat in Hp by lia.
  destruct (lobatto_shape eigh rj n be force HE HB) as (lam & w & Eq & _ & _ & HD & _ & HS). rewrite Eq in E.
  match goal with H : Ok ?x = Ok q |- _ => assert (q = x) as -> by congruence end.
  exists (lrule n n lam w (fun x => phi [x])). split.
  - apply lobatto_abstract; [exact (fun x => x)|now apply is_poly_poly1|exact HD|exact HS].
  - rewrite (q_call_rule _ _ phi); [f_equal; apply lrule_of_lists| |reflexivity].
    apply wf_of_lists. cbn [length]. rewrite !app_length, !map_length. reflexivity.
Qed.
(** The rule is returned; its first node is -1, its last node is 1, the others are
    inside; the N+1 nodes are distinct, the weights positive. *)
Theorem C38_legendre_rule (N : nat) eigh rj be force :
  (1 <= N)%nat -> lobatto_eigh eigh 0 0 N -> builtin be ->
  exists q mid, legendre_gauss_lobatto eigh rj N be force = Ok q
    /\ q_nodes q = [-1] :: mid ++ [[1]] /\ (forall p, In p mid -> exists x, p = [x] /\ -1 < x < 1) /\ NoDup mid /\ length mid = (N - 1)%nat
    /\ length (q_weights q) = (N + 1)%nat /\ (forall w, In w (q_weights q) -> 0 < w)
    /\ exact_to q = Ok (degree (2 * N - 1)) /\ q_dim q = 1%nat /\ q_flat q = negb force.
Proof.
  intros HN HE HB. destruct N as [|n]; [lia|]. destruct (lobatto_shape eigh rj n be force HE HB) as (lam & w & Eq & Hin & Hdis & _ & Hw & _).
  eexists. exists (map (fun x => [x]) (map lam (seq 0 n))). split; [exact Eq|]. cbn [q_nodes q_weights q_dim q_flat exact_to q_exact map].
  split; [now rewrite map_app|]. split; [|split; [|split; [|split; [|split; [|split; [|easy]]]]]].
  - intros p Hp. apply in_map_iff in Hp. destruct Hp as (x & <- & Hx). apply in_map_iff in Hx. destruct Hx as (i & <- & Hi). apply in_seq in Hi.
    exists (lam i). split; [easy|]. apply Hin. lia.
  - rewrite map_map. apply NoDup_map_inj_in; [|apply seq_NoDup]. intros i j Hi Hj Eij. apply in_seq in Hi, Hj. injection Eij as Eij. apply Hdis; [lia|lia|easy].
  - rewrite !map_length, seq_length. lia.
  - cbn [length]. rewrite app_length, map_length, seq_length. cbn [length]. lia.
  - assert (E0 : 0 < 2 / ((INR n + 1) * (INR n + 2))) by (pose proof (pos_INR n); apply Rdiv_lt_0_compat; nra).
    intros y [<-|Hy]; [easy|]. apply in_app_iff in Hy. destruct Hy as [Hy|[<-|[]]]; [|easy]. apply in_map_iff in Hy. destruct Hy as (i & <- & Hi). apply in_seq in Hi. apply Hw. lia.
  - unfold exact_to. cbn [q_exact]. replace (2 * S n - 1)%nat with (2 * n + 1)%nat by lia. reflexivity.
Qed.
(** No rule for N = 0; an unknown backend is refused as soon as it is needed. *)
Theorem C38_refused eigh rj a b be force :
  jacobi_gauss_lobatto eigh rj a b 0 be force = Err ValueError
  /\ forall N, (2 <= N)%nat -> jacobi_gauss_lobatto eigh rj a b N (Some OtherBackend) force = Err NotImplementedE.
Proof.
  split; [reflexivity|]. intros [|[|N]] H; try lia. reflexivity.
Qed.
(** The nodes function gives the nodes of the rule ... *)
Theorem C38_nodes eigh rj a b N be force l :
  (1 <= N)%nat -> jgl_nodes eigh rj a b N be force = Ok l ->
  snd l = negb force /\ (exists mid, fst l = -1 :: mid ++ [1])
  /\ (forall f q, jacobi_gauss_lobatto eigh rj a b N be f = Ok q -> q_nodes q = map (fun x => [x]) (fst l)).
Proof.
  intros HN E. unfold jacobi_gauss_lobatto, jgl_nodes in *. destruct N as [|n]; [lia|]. cbn [Nat.eqb] in *.
  match type of E with (bind ?x _ = _) => destruct x as [inner|e] eqn:EI end; cbn [bind] in *; [|discriminate].
  assert (l = (-1 :: inner ++ [1], negb force)) as -> by congruence. cbn [fst snd]. split; [reflexivity|]. split; [now exists inner|].
  intros f q Eq. replace (S n + 1 <? 2)%nat with false in Eq by (symmetry; apply Nat.ltb_ge; lia).
  match goal with H : Ok ?x = Ok q |- _ => assert (q = x) as -> by congruence end. reflexivity.
Qed.
(** ... except that for N = 0 a flat array is returned although [force_dim_axis] was given. *)
Theorem C38_nodes_flat_refuted : exists N force, forall eigh rj a b be, exists l, jgl_nodes eigh rj a b N be force = Ok l /\ snd l <> negb force.
Proof. exists 0%nat, true. intros. eexists. split; [reflexivity|]. cbn. easy. Qed.

Lemma binom_n0 x : -1 < x -> binom x 0 = 1.
Proof.
  intros H. unfold binom. replace (x - 0 + 1) with (x + 1) by ring. replace (0 + 1) with (INR 0 + 1) by (cbn; ring). rewrite gamma_fact.
  pose proof (gamma_pos (x + 1) ltac:(lra)). cbn. field. lra.
Qed.
Lemma is_RInt_poly2 a b c (l : R) : l = 2 * a + 2 / 3 * c -> is_RInt (fun x => a + b * x + c * x * x) (-1) 1 l.
Proof.
  intros ->. replace (2 * a + 2 / 3 * c) with ((a * 1 + b * (1 * 1) / 2 + c * (1 * 1 * 1) / 3) - (a * (-1) + b * ((-1) * (-1)) / 2 + c * ((-1) * (-1) * (-1)) / 3)) by field.
  apply (is_RInt_derive (fun x => a * x + b * (x * x) / 2 + c * (x * x * x) / 3) (fun x => a + b * x + c * x * x)).
  - intros x _. auto_derive; [easy|field].
  - intros x _. apply (ex_derive_continuous (fun t => a + b * t + c * t * t)). auto_derive. easy.
Qed.
(** The second half of the claim fails.  For alpha = 1, beta = 0, N = 1 the rule
    advertises degree 1 but its weights sum to 8/3, while the integral of 1 - x over
    the interval is 2. *)
Theorem C38_jacobi_refuted : exists a b N q, (forall eigh rj be, jacobi_gauss_lobatto eigh rj a b N be false = Ok q)
  /\ exact_to q = Ok (degree (2 * N - 1))
  /\ exists phi v v', is_poly 1 (2 * N - 1) phi
     /\ is_RInt (fun x => phi [x] * (Rpower (1 - x) a * Rpower (1 + x) b)) (-1) 1 v
     /\ q_call q (fun x => Ok (phi x)) = Ok v' /\ v <> v'.
Proof.
  exists 1, 0, 1%nat. eexists. split; [intros; reflexivity|]. split; [reflexivity|].
  exists (fun _ => 1), 2, (8 / 3). split; [apply is_poly_const|]. split; [|split; [|lra]].
  - apply (is_RInt_ext (fun x => 1 + -1 * x + 0 * x * x)); [|apply is_RInt_poly2; lra].
    intros x Hx. rewrite Rmin_left, Rmax_right in Hx by lra. rewrite Rpower_1, Rpower_O by lra. req. ring.
  - rewrite (q_call_rule _ _ (fun _ => 1)) by first [reflexivity|split; [repeat constructor|reflexivity]]. f_equal.
    unfold rule. cbn [q_nodes q_weights Nat.sub fst tl removelast map app].
    unfold dotR. cbn [combine map fold_right fst snd].
    replace (jgl_edge 1 0 (INR 0)) with (4 / 3); [field|]. unfold jgl_edge, jgl_common. change (INR 0) with 0. rewrite !binom_n0 by lra.
    replace (1 + 0 + 1) with (INR 2) by (cbn; ring). rewrite Rpower_pow by lra.
    replace (1 + 2) with (INR 2 + 1) by (cbn; ring). replace (1 + 0 + 3) with (INR 3 + 1) by (cbn; ring). replace (0 + 1) with (INR 0 + 1) by (cbn; ring).
    rewrite !gamma_fact. cbn. field.
Qed.
(** It also fails with equal parameters: for alpha = beta = 1, N = 2 the weights sum to
    20/27, while the integral of 1 - x^2 is 4/3. *)
Theorem C38_gegenbauer_refuted : exists a N, 0 < a /\ forall eigh rj be, lobatto_eigh eigh a a N -> builtin be ->
  exists q phi v v', jacobi_gauss_lobatto eigh rj a a N be false = Ok q
     /\ exact_to q = Ok (degree (2 * N - 1)) /\ is_poly 1 (2 * N - 1) phi
     /\ is_RInt (fun x => phi [x] * (Rpower (1 - x) a * Rpower (1 + x) a)) (-1) 1 v
     /\ q_call q (fun x => Ok (phi x)) = Ok v' /\ v <> v'.
Proof.
  exists 1, 2%nat. split; [lra|]. intros eigh rj be HE HB. pose proof small_ok as SO.
  assert (GP : gauss_params (1 + 1) (1 + 1)). { split; [lra|]. split; [lra|]. right. split; [left|]; rewrite Rabs_right by lra; lra. }
  destruct (gauss_shape eigh rj (1 + 1) (1 + 1) 0 be true GP (fun _ => HE (le_n 2)) HB) as (lam & V & Dec & E).
  assert (L0 : lam 0%nat = 0).
  { pose proof (node_root (jp (1 + 1) (1 + 1)) (A (1 + 1) (1 + 1)) (bcoef (1 + 1) (1 + 1)) (kap (1 + 1) (1 + 1) 0) ltac:(intros; apply A_pos; lra)
      ltac:(apply kap0_ne; lra) (jp0 _ _) (jp_rec0 (1+1) (1+1) ltac:(lra) ltac:(lra)) (jp_recS (1+1) (1+1) ltac:(lra) ltac:(lra)) 0 lam V Dec 0%nat (le_n 1)) as Z.
    unfold jp in Z. pose proof (kap_pos (1 + 1) (1 + 1) 1 ltac:(lra) ltac:(lra)) as KP. apply Rmult_integral in Z. destruct Z as [Z|Z]; [lra|]. rewrite F_1 in Z by lra. lra. }
  unfold jacobi_gauss_lobatto, jgl_nodes. cbn [Nat.eqb Nat.ltb Nat.leb Nat.sub]. rewrite E. cbn [bind q_nodes seq map nth fst tl app removelast Nat.add Nat.ltb Nat.leb Nat.sub negb].
  rewrite L0. eexists. exists (fun _ => 1), (4 / 3), (20 / 27). split; [reflexivity|]. split; [reflexivity|]. split; [apply is_poly_const|]. split; [|split; [|lra]].
  - apply (is_RInt_ext (fun x => 1 + 0 * x + -1 * x * x)); [|apply is_RInt_poly2; lra].
    intros x Hx. rewrite Rmin_left, Rmax_right in Hx by lra. rewrite !Rpower_1 by lra. req. ring.
  - rewrite (q_call_rule _ _ (fun _ => 1)) by first [reflexivity|split; [repeat constructor|reflexivity]]. f_equal.
    unfold rule. cbn [q_nodes q_weights map]. unfold dotR. cbn [combine map fold_right fst snd].
    assert (C : jgl_common 1 1 (INR 1) = 2 / 15).
    { unfold jgl_common, binom. replace (1 + 1 + 1) with (INR 3) by (cbn; ring). rewrite Rpower_pow by lra.
      replace (INR 1 + 1 + 1 + 1) with (INR 3 + 1) by (cbn; ring). replace (INR 1 + 1 + 1 - INR 1 + 1) with (INR 2 + 1) by (cbn; ring).
      replace (INR 1 + 1 + 1 + 2 + 1) with (INR 5 + 1) by (cbn; ring). replace (INR 1 + 1 + 1 + 2 - INR 1 + 1) with (INR 4 + 1) by (cbn; ring).
      replace (1 + 2) with (INR 2 + 1) by (cbn; ring). replace (1 + 1 + 3) with (INR 4 + 1) by (cbn; ring).
      rewrite !gamma_fact. cbn. field. }
    unfold jgl_edge, jgl_inner. cbv zeta. rewrite C.
    assert (SJ : scaled_jacobi Rops 1 1 2 0 = - (3 / 4)).
    { assert (E1 : scaled_jacobi Rops 1 1 2 1 = 3).
      { rewrite scaled_jacobi_1; [|lra|lra|right; rewrite Rabs_right by lra; cbn; lra]. unfold binom.
        replace (INR 2 + 1 + 1) with (INR 3 + 1) by (cbn; ring). replace (INR 2 + 1 - INR 2 + 1) with (INR 1 + 1) by (cbn; ring). rewrite !gamma_fact. cbn. field. }
      assert (D2 : D 2 0 = - (1 / 4)).
      { pose proof (D_rec 0 0) as R0. rewrite (F_0 1 2 0 : D 0 0 = 1) in R0. change (INR 0) with 0 in R0. lra. }
      revert E1. unfold scaled_jacobi. cbn [Rops vmul vc]. cbv zeta. set (k := sqrt _).
      rewrite !jacobi_jp by first [lra|apply jac_gamma0_pos; lra]. rewrite !jp11, D_at1, D2. intros E1.
      replace (k * (kap 1 1 2 * - (1 / 4))) with (- (1 / 4) * (k * (kap 1 1 2 * 1))) by ring. rewrite E1. field. }
    replace (1 + 1)%nat with 2%nat by lia. rewrite SJ. replace (1 + 1) with (INR 1 + 1) by (cbn; ring). replace (1 + 2) with (INR 2 + 1) by (cbn; ring).
    rewrite !gamma_fact. cbn. field.
Qed.

(** The hypotheses hold for some eigenvalue routine, for every N; in particular the
    three-point rule (N = 2, Simpson's rule) has nodes -1, 0, 1. *)
Theorem C38_eigh_exists N : exists eigh, lobatto_eigh eigh 0 0 N.
Proof.
  destruct (C37_decomposition_exists (0 + 1) (0 + 1) ltac:(lra) ltac:(lra) ltac:(lra) (N - 2)) as (eigh & H & _). exists eigh. now intros _.
Qed.
Example C38_simpson rj : exists eigh q, lobatto_eigh eigh 0 0 2 /\ builtin None
  /\ legendre_gauss_lobatto eigh rj 2 None false = Ok q /\ q_nodes q = [[-1]; [0]; [1]].
Proof.
  destruct (C38_eigh_exists 2) as (eigh & HE). destruct (lobatto_shape eigh rj 1 None false HE ltac:(now left)) as (lam & w & E & _ & _ & HD & _).
  exists eigh. eexists. split; [exact HE|]. split; [now left|]. split; [exact E|]. cbn [q_nodes map seq app].
  specialize (HD 0%nat ltac:(lia)). unfold D in HD. rewrite F_1 in HD by lra. replace (lam 0%nat) with 0 by lra. reflexivity.
Qed.

Print Assumptions C38_legendre_exact.
Print Assumptions C38_legendre_rule.
Print Assumptions C38_refused.
Print Assumptions C38_nodes.
Print Assumptions C38_jacobi_refuted.
Print Assumptions C38_gegenbauer_refuted.
