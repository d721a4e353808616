(** * C47, C48: linear combinations of integrands and orthogonalisation *)
From Coq Require Import Reals.
From Coquelicot Require Import Coquelicot.
From Coq Require Import List Arith Bool Lia Lra Classical_Prop ClassicalEpsilon.
From Verif Require Import Py RSum ModelConstruction ProofConstruction.
Import ListNotations.
Local Open Scope C_scope.

(** ** C47 *)
Section C47.
  Context {P : Type} (py_eq : nfun P -> nfun P -> res bool).
  (** Comparison of function objects: objects that compare equal are the same function. *)
  Definition eq_sound : Prop := forall f g, py_eq f g = Ok true -> forall x, neval f x = neval g x.
  (** The i-th function of a list (zero outside). *)
  Definition nfn (fs : list (nfun P)) (i : nat) (x : P) : C := neval (nth i fs (NPrim 0 (fun _ => RtoC 0))) x.
  (** Whatever branch is taken, the result is the linear combination. *)
  Theorem C47_linear_combination k cs fs g : eq_sound -> Forall lin_ok fs -> linearly_combine py_eq k cs fs = Ok g ->
    length cs = length fs /\ lin_ok g /\ forall x, neval g x = csum (fun i => nth i cs (RtoC 0) * nfn fs i x) (length fs).
  Proof. intros HE HF H. exact (combine_spec py_eq HE k cs fs g HF H). Qed.
  (** Functions none of which (or only some of which) are combinations: always combined, un-flattened. *)
  Theorem C47_plain k cs fs id f : length cs = length fs -> In (NPrim id f) fs -> linearly_combine py_eq k cs fs = Ok (NLin k cs fs).
  Proof.
    intros L HI. unfold linearly_combine.
    assert (B : forall l : list (nfun P), (length (flat_map as_lin l) <= length l)%nat).
    { induction l as [|a l IH]; [easy|]. cbn [flat_map]. rewrite app_length. destruct a; cbn [as_lin length]; lia. }
    assert (N : (length (flat_map as_lin fs) < length fs)%nat).
    { clear L. induction fs as [|a fs IH]; [easy|]. cbn [flat_map length]. rewrite app_length. destruct HI as [->|HI].
      - cbn [as_lin length]. pose proof (B fs). lia.
      - specialize (IH HI). destruct a; cbn [as_lin length]; lia. }
    destruct (Nat.eqb_spec (length (flat_map as_lin fs)) (length fs)); [lia|]. cbn [negb]. unfold mk_lin. now rewrite L, Nat.eqb_refl.
  Qed.
  (** Combinations over a common basis of as many functions as there are combinations are flattened:
      the result refers to the basis functions only. *)
  Lemma list_ne_refl xs : (forall f, py_eq f f = Ok true) -> list_ne py_eq xs xs = Ok false.
  Proof. intros R. induction xs as [|a xs IH]; [easy|]. cbn [list_ne]. now rewrite R. Qed.
  Lemma flatten_prefix (B : list (nfun P)) : (forall f, py_eq f f = Ok true) ->
    forall lcs m rows, Forall (fun lc => fst (fst lc) = true /\ length (snd (fst lc)) = length (snd lc) /\ (length (snd lc) <= length B)%nat /\ snd lc = firstn (length (snd lc)) B) lcs -> (m <= length B)%nat ->
    exists m' rows', (m <= m' <= length B)%nat /\ (forall lc, In lc lcs -> (length (snd lc) <= m')%nat)
      /\ flatten_loop py_eq (length B) lcs (firstn m B) rows = Ok (Some (firstn m' B, rows')).
  Proof.
    intros R. induction lcs as [|[[k cs] fs] lcs IH]; intros m rows HF Hm.
    - exists m, rows. split; [lia|]. split; [easy|reflexivity].
    - inversion HF as [|? ? (Hk & LC & LB & Hp) HF']; subst. cbn [fst snd] in *. subst k. cbn [flatten_loop].
      rewrite firstn_length_le by easy. set (nc := Nat.min m (length fs)).
      assert (Fp : forall q, (q <= length fs)%nat -> firstn q fs = firstn q B).
      { intros q Hq. transitivity (firstn q (firstn (length fs) B)); [now rewrite <- Hp|]. rewrite firstn_firstn. f_equal. lia. }
      assert (E : list_ne py_eq (firstn nc (firstn m B)) (firstn nc fs) = Ok false).
      { rewrite (Fp nc), firstn_firstn by (unfold nc; lia). replace (Nat.min nc m) with nc by (unfold nc; lia). now apply list_ne_refl. }
      rewrite E. cbn [bind]. destruct (Nat.ltb_spec (length B) (length cs)); [lia|].
      assert (EB : firstn m B ++ skipn nc fs = firstn (Nat.max m (length fs)) B).
      { destruct (Nat.le_ge_cases m (length fs)) as [Q|Q].
        - replace nc with m by (unfold nc; lia). replace (Nat.max m (length fs)) with (length fs) by lia.
          rewrite <- (Fp m Q), firstn_skipn. exact Hp.
        - replace nc with (length fs) by (unfold nc; lia). rewrite skipn_all, app_nil_r. f_equal. lia. }
      rewrite EB. destruct (IH (Nat.max m (length fs)) (rows ++ [cs ++ repeat (RtoC 0) (length B - length cs)]) HF' ltac:(lia)) as (m' & rows' & H1 & H2 & H3).
      exists m', rows'. split; [lia|]. split; [|exact H3]. intros lc [<-|Hl]; [cbn [snd]; lia|now apply H2].
  Qed.
  Theorem C47_flattened k cs (lcs : list (list C * list (nfun P))) (B : list (nfun P)) :
    (forall f, py_eq f f = Ok true) ->
    length lcs = length B -> length cs = length B ->
    Forall (fun lc => length (fst lc) = length (snd lc) /\ snd lc = firstn (length (snd lc)) B) lcs ->
    (exists lc, In lc lcs /\ snd lc = B) ->
    exists cs', linearly_combine py_eq k cs (map (fun lc => NLin true (fst lc) (snd lc)) lcs) = Ok (NLin true cs' B) /\ length cs' = length B.
  Proof.
    intros R LL LC HF (lc0 & I0 & E0). unfold linearly_combine.
    assert (EF : flat_map as_lin (map (fun lc => @NLin P true (fst lc) (snd lc)) lcs) = map (fun lc => (true, fst lc, snd lc)) lcs).
    { clear. induction lcs as [|a l IH]; [easy|]. cbn [map flat_map as_lin app]. now rewrite IH. }
    rewrite EF, !map_length, Nat.eqb_refl. cbn [negb]. rewrite LL.
    destruct (flatten_prefix B R (map (fun lc => (true, fst lc, snd lc)) lcs) 0 []) as (m' & rows' & H1 & H2 & H3).
    - apply Forall_map. eapply Forall_impl; [|exact HF]. cbn [fst snd]. intros lc [A1 A2]. split; [easy|]. split; [easy|]. split; [|easy]. rewrite A2, firstn_length. lia.
    - lia.
    - cbn [firstn] in H3. rewrite H3. cbn [bind].
      assert (m' = length B). { specialize (H2 (true, fst lc0, snd lc0)). cbn [snd] in H2. rewrite E0 in H2. assert (length B <= m')%nat; [|lia]. apply H2. apply in_map_iff. exists lc0. rewrite E0. split; easy. }
      subst m'. rewrite firstn_all. unfold vecmat. rewrite LC, Nat.eqb_refl. cbn [bind]. unfold mk_lin. rewrite map_length, seq_length, Nat.eqb_refl.
      eexists. split; [reflexivity|]. now rewrite map_length, seq_length.
  Qed.
End C47.
(** Contrary to the docstring, combinations over a consistent basis are not flattened when their number differs from the
    number of basis functions: an exception is raised instead. *)
Theorem C47_consistent_refuted {P} (py_eq : nfun P -> nfun P -> res bool) (b1 b2 : nfun P) : (forall f, py_eq f f = Ok true) ->
  linearly_combine py_eq true [RtoC 2] [NLin true [RtoC 1; RtoC 1] [b1; b2]] = Err ValueError
  /\ linearly_combine py_eq true [RtoC 2; RtoC 3] [NLin true [RtoC 1] [b1]; NLin true [RtoC 1] [b1]] = Err AssertionE.
Proof.
  intros R. split; [reflexivity|]. unfold linearly_combine. cbn [flat_map as_lin app length Nat.eqb negb flatten_loop Nat.min firstn list_ne bind Nat.ltb Nat.leb skipn].
  rewrite R. reflexivity.
Qed.
(** Combinations whose functions are kept in a tuple are never flattened. *)
Theorem C47_tuple_refuted {P} (py_eq : nfun P -> nfun P -> res bool) (b : nfun P) :
  linearly_combine py_eq true [RtoC 2] [NLin false [RtoC 3] [b]] = Ok (NLin true [RtoC 2] [NLin false [RtoC 3] [b]]).
Proof. reflexivity. Qed.

(** ** C48 *)
(** The integrator: depends on the values only, linear, compatible with conjugation (as a
    quadrature rule with real weights is). *)
Definition integrator {P} (I : (P -> C) -> C) : Prop :=
  (forall f g, (forall x, f x = g x) -> I f = I g)
  /\ (forall a f g, I (fun x => a * f x + g x) = a * I f + I g)
  /\ (forall f, I (fun x => Cconj (f x)) = Cconj (I f)).
(** The inner product *)
Definition ip {P} (I : (P -> C) -> C) (f g : P -> C) : C := I (fun x => f x * Cconj (g x)).
(** The Hermitian matrix given by a lower triangle. *)
Definition herm (M : nat -> nat -> C) (i j : nat) : C := if (j <=? i)%nat then M i j else Cconj (M j i).
Definition pos_def (n : nat) (M : nat -> nat -> C) : Prop :=
  (forall i, (i < n)%nat -> Im (M i i) = 0%R)
  /\ forall c : nat -> C, (exists i, (i < n)%nat /\ c i <> 0) -> (0 < Re (csum (fun i => csum (fun j => c i * Cconj (c j) * herm M i j) n) n)%C)%R.
(** L is the Cholesky factor of the Hermitian matrix given by the lower triangle of M. *)
Definition is_cholesky (n : nat) (M L : nat -> nat -> C) : Prop :=
  (forall i j, (i < j < n)%nat -> L i j = 0) /\ (forall i, (i < n)%nat -> exists r : R, (0 < r)%R /\ L i i = RtoC r)
  /\ (forall i j, (i < n)%nat -> (j <= i)%nat -> csum (fun k => L i k * Cconj (L j k)) n = M i j).
(** numpy.linalg.cholesky (it reads the lower triangle only) and scipy's solve_triangular *)
Definition chol_routine (cholesky : nat -> (nat -> nat -> C) -> res (nat -> nat -> C)) : Prop :=
  forall n M, (pos_def n M -> exists L, cholesky n M = Ok L /\ is_cholesky n M L) /\ (~ pos_def n M -> cholesky n M = Err LinAlgError).
Definition tri_routine (solve : nat -> (nat -> nat -> C) -> (nat -> nat -> C) -> (nat -> nat -> C)) : Prop :=
  forall n (L B : nat -> nat -> C), (forall i j, (i < j < n)%nat -> L i j = 0) -> (forall i, (i < n)%nat -> L i i <> 0) ->
    forall i j, (i < n)%nat -> (j < n)%nat -> csum (fun k => L i k * solve n L B k j) n = B i j.

(** *** Every positive definite matrix has a Cholesky factor. *)
Lemma tri_solve n (L : nat -> nat -> C) (b : nat -> C) : (forall i, (i < n)%nat -> L i i <> 0) ->
  exists z, forall i, (i < n)%nat -> csum (fun k => L i k * z k) (S i) = b i.
Proof.
  induction n as [|n IH]; intros H; [exists (fun _ => RtoC 0); lia|]. destruct IH as [z Hz]; [intros; apply H; lia|].
  set (zn := (b n - csum (fun k => L n k * z k) n) / L n n). exists (fun k => if (k =? n)%nat then zn else z k).
  intros i Hi. destruct (Nat.eq_dec i n) as [->|N].
  - cbn [csum]. rewrite Nat.eqb_refl. rewrite (csum_ext _ (fun k => L n k * z k)) by (intros k Hk; destruct (Nat.eqb_spec k n); [lia|easy]). unfold zn. field. apply H. lia.
  - rewrite <- (Hz i) by lia. apply csum_ext. intros k Hk. destruct (Nat.eqb_spec k n); [lia|easy].
Qed.
Lemma tri_solve' n (L : nat -> nat -> C) (b : nat -> C) : (forall i j, (i < j < n)%nat -> L i j = 0) -> (forall i, (i < n)%nat -> L i i <> 0) ->
  exists z, forall i, (i < n)%nat -> csum (fun k => L i k * z k) n = b i.
Proof.
  intros HL HD. destruct (tri_solve n L b HD) as [z Hz]. exists z. intros i Hi. rewrite <- (Hz i Hi). apply csum_tail; [lia|]. intros k Hk. rewrite HL by lia. ring.
Qed.
Lemma finite_choice {A} (d : A) (Q : nat -> A -> Prop) n : (forall i, (i < n)%nat -> exists a, Q i a) -> exists f, forall i, (i < n)%nat -> Q i (f i).
Proof.
  induction n as [|n IH]; intros H; [exists (fun _ => d); lia|]. destruct IH as [f Hf]; [intros; apply H; lia|]. destruct (H n ltac:(lia)) as [a Ha].
  exists (fun i => if (i =? n)%nat then a else f i). intros i Hi. destruct (Nat.eqb_spec i n) as [->|]; [easy|apply Hf; lia].
Qed.
Lemma tri_inverse n (L : nat -> nat -> C) : (forall i j, (i < j < n)%nat -> L i j = 0) -> (forall i, (i < n)%nat -> L i i <> 0) ->
  exists X, forall i j, (i < n)%nat -> (j < n)%nat -> csum (fun k => L i k * X k j) n = if (i =? j)%nat then 1 else 0.
Proof.
  intros HL HD. destruct (finite_choice (fun _ => RtoC 0) (fun j z => forall i, (i < n)%nat -> csum (fun k => L i k * z k) n = if (i =? j)%nat then 1 else 0) n) as [f Hf].
  - intros j _. apply tri_solve'; easy.
  - exists (fun k j => f j k). intros i j Hi Hj. now apply Hf.
Qed.
Lemma Cconj_RtoC r : Cconj (RtoC r) = RtoC r.
Proof. unfold Cconj, RtoC. cbn. f_equal. ring. Qed.
Lemma conj_eq_real z : Im z = 0%R -> Cconj z = z.
Proof. destruct z as [a b]. unfold Im, Cconj. cbn. intros ->. f_equal. ring. Qed.
Lemma csum_Re f n : Re (csum f n) = rsum (fun k => Re (f k)) n.
Proof. induction n as [|n IH]; [reflexivity|]. cbn [csum rsum]. rewrite <- IH. reflexivity. Qed.
Lemma csum_Im f n : Im (csum f n) = rsum (fun k => Im (f k)) n.
Proof. induction n as [|n IH]; [reflexivity|]. cbn [csum rsum]. rewrite <- IH. reflexivity. Qed.
(** Rearranging c^T (G G^H) c. *)
Lemma quad_form n m (G : nat -> nat -> C) (c : nat -> C) :
  csum (fun i => csum (fun j => c i * Cconj (c j) * csum (fun k => G i k * Cconj (G j k)) m) n) n
  = csum (fun k => csum (fun i => c i * G i k) n * Cconj (csum (fun i => c i * G i k) n)) m.
Proof.
  rewrite (csum_ext _ (fun i => csum (fun k => csum (fun j => (c i * G i k) * Cconj (c j * G j k)) n) m)).
  2:{ intros i _. rewrite csum_swap. apply csum_ext. intros j _. rewrite <- csum_scal. apply csum_ext. intros k _. rewrite Cconj_mult. ring. }
  rewrite csum_swap. apply csum_ext. intros k _. rewrite Cconj_csum. rewrite <- csum_scal_r. apply csum_ext. intros i _. now rewrite <- csum_scal.
Qed.
Theorem cholesky_exists n M : pos_def n M -> exists L, is_cholesky n M L.
Proof.
  induction n as [|n IH]; intros [HI HP].
  { exists (fun _ _ => RtoC 0). split; [lia|]. split; lia. }
  destruct IH as (L0 & LL & LD & LC).
  { split; [intros; apply HI; lia|]. intros c (i & Hi & Ni). specialize (HP (fun k => if (k <? n)%nat then c k else 0)).
    assert (E : csum (fun i => csum (fun j => (if (i <? n)%nat then c i else 0) * Cconj (if (j <? n)%nat then c j else 0) * herm M i j) (S n)) (S n)
                = csum (fun i => csum (fun j => c i * Cconj (c j) * herm M i j) n) n).
    { cbn [csum]. rewrite (csum_0 (fun j => (if (n <? n)%nat then c n else 0) * Cconj (if (j <? n)%nat then c j else 0) * herm M n j) n) by (intros k Hk; rewrite Nat.ltb_irrefl; ring).
      rewrite Nat.ltb_irrefl. rewrite !Cmult_0_l, !Cplus_0_r. apply csum_ext. intros a Ha. rewrite Cconj_0. rewrite Cmult_0_r, Cmult_0_l, Cplus_0_r. apply csum_ext. intros b Hb.
      destruct (Nat.ltb_spec a n), (Nat.ltb_spec b n); try lia. easy. }
    cbv beta in HP. rewrite E in HP. apply HP. exists i. split; [lia|]. destruct (Nat.ltb_spec i n); [easy|lia]. }
  assert (LN : forall i, (i < n)%nat -> L0 i i <> 0).
  { intros i Hi. destruct (LD i Hi) as (r & Hr & ->). intros E. apply RtoC_inj in E. lra. }
  (* the new row *)
  destruct (tri_solve' n (fun j k => Cconj (L0 j k)) (fun j => M n j)) as [l Hl].
  { intros i j Hij. rewrite LL by easy. apply Cconj_0. }
  { intros i Hi E. apply (LN i Hi). rewrite <- (Cconj_conj (L0 i i)), E. apply Cconj_0. }
  (* the vector that isolates the new pivot *)
  destruct (tri_inverse n L0 LL LN) as [X HX].
  set (d := M n n - csum (fun k => l k * Cconj (l k)) n).
  set (G := fun i k => if (i =? n)%nat then l k else L0 i k).
  set (c := fun i => if (i =? n)%nat then RtoC 1 else - csum (fun k => l k * X k i) n).
  assert (CG : forall k, (k < n)%nat -> csum (fun i => c i * G i k) (S n) = 0).
  { intros k Hk. cbn [csum]. unfold c, G. rewrite Nat.eqb_refl.
    rewrite (csum_ext _ (fun i => csum (fun p => - (l p * (X p i * L0 i k))) n)).
    2:{ intros i Hi. destruct (Nat.eqb_spec i n); [lia|]. transitivity (csum (fun p => l p * X p i) n * - L0 i k); [ring|]. rewrite <- csum_scal_r. apply csum_ext. intros; ring. }
    rewrite csum_swap. rewrite (csum_ext _ (fun p => - l p * (if (p =? k)%nat then 1 else 0))).
    2:{ intros p Hp. rewrite <- (inv_left n L0 X LL LN HX p k Hp Hk), <- csum_scal. apply csum_ext. intros; ring. }
    rewrite (csum_single (fun p => - l p * (if (p =? k)%nat then 1 else 0)) n k Hk).
    2:{ intros q Hq N. destruct (Nat.eqb_spec q k); [lia|ring]. }
    rewrite Nat.eqb_refl. ring. }
  assert (HM : forall i j, (i < S n)%nat -> (j < S n)%nat ->
    herm M i j = csum (fun k => G i k * Cconj (G j k)) n + (if (i =? n)%nat then (if (j =? n)%nat then d else 0) else 0)).
  { intros i j Hi Hj. unfold herm, G. destruct (Nat.eqb_spec i n) as [->|Ni], (Nat.eqb_spec j n) as [->|Nj].
    - rewrite Nat.leb_refl. unfold d. ring.
    - destruct (Nat.leb_spec j n); [|lia]. rewrite <- (Hl j) by lia. rewrite Cplus_0_r. apply csum_ext. intros; ring.
    - destruct (Nat.leb_spec n i); [lia|]. rewrite <- (Hl i) by lia. rewrite Cplus_0_r, Cconj_csum. apply csum_ext. intros. now rewrite Cconj_mult, Cconj_conj.
    - rewrite Cplus_0_r. destruct (Nat.leb_spec j i).
      + symmetry. apply LC; lia.
      + rewrite <- (LC j i) by lia. rewrite Cconj_csum. apply csum_ext. intros. rewrite Cconj_mult, Cconj_conj. ring. }
  assert (PD : (0 < Re d)%R).
  { assert (Q : csum (fun i => csum (fun j => c i * Cconj (c j) * herm M i j) (S n)) (S n) = d).
    { rewrite (csum_ext _ (fun i => csum (fun j => c i * Cconj (c j) * csum (fun k => G i k * Cconj (G j k)) n) (S n) + csum (fun j => c i * Cconj (c j) * (if (i =? n)%nat then (if (j =? n)%nat then d else 0) else 0)) (S n))).
      2:{ intros i Hi. rewrite <- csum_plus. apply csum_ext. intros j Hj. rewrite HM by easy. ring. }
      rewrite csum_plus, quad_form. rewrite csum_0 by (intros k Hk; rewrite CG by easy; ring).
      rewrite (csum_single (fun i => csum (fun j => c i * Cconj (c j) * (if (i =? n)%nat then (if (j =? n)%nat then d else 0) else 0)) (S n)) (S n) n ltac:(lia)).
      2:{ intros q Hq N. apply csum_0. intros r Hr. destruct (Nat.eqb_spec q n); [lia|ring]. }
      rewrite (csum_single (fun j => c n * Cconj (c j) * (if (n =? n)%nat then (if (j =? n)%nat then d else 0) else 0)) (S n) n ltac:(lia)).
      2:{ intros q Hq N. rewrite Nat.eqb_refl. destruct (Nat.eqb_spec q n); [lia|ring]. }
      unfold c. rewrite !Nat.eqb_refl, Cconj_1. ring. }
    rewrite <- Q. apply HP. exists n. split; [lia|]. unfold c. rewrite Nat.eqb_refl. intros E. apply RtoC_inj in E. lra. }
  assert (ID : Im d = 0%R).
  { unfold d. change (Im (M n n) + - Im (csum (fun k => l k * Cconj (l k)) n)%C = 0)%R. rewrite HI by lia. rewrite csum_Im, rsum_0; [ring|]. intros k _. unfold Im, Cmult, Cconj. cbn. ring. }
  exists (fun i k => if (i =? n)%nat then (if (k =? n)%nat then RtoC (sqrt (Re d)) else l k) else if (k =? n)%nat then 0 else L0 i k).
  split; [|split].
  - intros i j Hij. destruct (Nat.eqb_spec i n); [lia|]. destruct (Nat.eqb_spec j n); [easy|apply LL; lia].
  - intros i Hi. destruct (Nat.eqb_spec i n) as [->|N]; [exists (sqrt (Re d)); split; [now apply sqrt_lt_R0|easy]|apply LD; lia].
  - intros i j Hi Hj. cbn [csum]. rewrite Nat.eqb_refl. destruct (Nat.eqb_spec i n) as [->|Ni], (Nat.eqb_spec j n) as [->|Nj]; try lia.
    + rewrite (csum_ext _ (fun k => l k * Cconj (l k))) by (intros k Hk; destruct (Nat.eqb_spec k n); [lia|easy]).
      rewrite Cconj_RtoC, <- RtoC_mult, sqrt_sqrt by lra. replace (RtoC (Re d)) with d; [unfold d; ring|]. destruct d as [a b]. unfold Im in ID. cbn in ID. subst b. reflexivity.
    + rewrite Cconj_0, Cmult_0_r, Cplus_0_r. rewrite <- (Hl j) by lia. apply csum_ext. intros k Hk. destruct (Nat.eqb_spec k n); [lia|]. ring.
    + rewrite Cmult_0_l, Cplus_0_r. rewrite <- (LC i j) by lia. apply csum_ext. intros k Hk. destruct (Nat.eqb_spec k n); [lia|easy].
Qed.
Lemma choice_fun {A B : Type} (Q : A -> B -> Prop) : (forall a, exists b, Q a b) -> exists f, forall a, Q a (f a).
Proof.
  intros H. exists (fun a => proj1_sig (ClassicalEpsilon.constructive_indefinite_description _ (H a))).
  intros a. exact (proj2_sig (ClassicalEpsilon.constructive_indefinite_description _ (H a))).
Qed.
(** Routines meeting the specifications exist. *)
Theorem C48_routines_exist : exists cholesky solve, chol_routine cholesky /\ tri_routine solve.
Proof.
  destruct (choice_fun (fun (nM : nat * (nat -> nat -> C)) (r : res (nat -> nat -> C)) =>
     (pos_def (fst nM) (snd nM) -> exists L, r = Ok L /\ is_cholesky (fst nM) (snd nM) L) /\ (~ pos_def (fst nM) (snd nM) -> r = Err LinAlgError))) as [chol HC].
  { intros [n M]. cbn [fst snd]. destruct (Classical_Prop.classic (pos_def n M)) as [H|H].
    - destruct (cholesky_exists n M H) as [L HL]. exists (Ok L). split; [intros _; now exists L|easy].
    - exists (Err LinAlgError). split; [easy|easy]. }
  destruct (choice_fun (fun (a : nat * (nat -> nat -> C) * (nat -> nat -> C)) (X : nat -> nat -> C) =>
     let '(n, L, B) := a in (forall i j, (i < j < n)%nat -> L i j = 0) -> (forall i, (i < n)%nat -> L i i <> 0) ->
     forall i j, (i < n)%nat -> (j < n)%nat -> csum (fun k => L i k * X k j) n = B i j)) as [sol HS].
  { intros [[n L] B]. destruct (Classical_Prop.classic ((forall i j, (i < j < n)%nat -> L i j = 0) /\ (forall i, (i < n)%nat -> L i i <> 0))) as [[H1 H2]|H].
    - destruct (finite_choice (fun _ => RtoC 0) (fun j z => forall i, (i < n)%nat -> csum (fun k => L i k * z k) n = B i j) n) as [f Hf].
      + intros j _. now apply tri_solve'.
      + exists (fun k j => f j k). intros _ _ i j Hi Hj. now apply Hf.
    - exists (fun _ _ => RtoC 0). intros H1 H2. exfalso. now apply H. }
  exists (fun n M => chol (n, M)), (fun n L B => sol (n, L, B)). split.
  - intros n M. exact (HC (n, M)).
  - intros n L B. exact (HS (n, L, B)).
Qed.

(** *** The theorem *)
Lemma Forall_firstn {A} (Q : A -> Prop) n l : Forall Q l -> Forall Q (firstn n l).
Proof. intros H. revert n. induction H; intros [|n]; cbn [firstn]; constructor; auto. Qed.
Lemma integrator_sum {P} (I : (P -> C) -> C) : integrator I -> forall (f : nat -> P -> C) n, I (fun x => csum (fun k => f k x) n) = csum (fun k => I (f k)) n.
Proof.
  intros (HE & HL & _) f n.
  assert (Z : I (fun _ => RtoC 0) = 0).
  { pose proof (HL (- (1)) (fun _ => RtoC 0) (fun _ => RtoC 0)) as H. rewrite (HE _ (fun _ : P => RtoC 0)) in H by (intros; ring). rewrite H at 1. ring. }
  induction n as [|n IH]; cbn [csum]; [exact Z|].
  rewrite (HE _ (fun x => 1 * f n x + csum (fun k => f k x) n)) by (intros; ring). rewrite HL, IH. ring.
Qed.
Lemma integrator_scal {P} (I : (P -> C) -> C) : integrator I -> forall a f, I (fun x => a * f x) = a * I f.
Proof.
  intros HI a f. pose proof (integrator_sum I HI (fun _ _ => RtoC 0) 0) as Z. cbn [csum] in Z. destruct HI as (HE & HL & _).
  rewrite (HE _ (fun x => a * f x + 0)) by (intros; ring). rewrite (HL a f (fun _ => RtoC 0)), Z. ring.
Qed.
Section C48.
  Context {P : Type} (I : (P -> C) -> C) (py_eq : nfun P -> nfun P -> res bool)
          (cholesky : nat -> (nat -> nat -> C) -> res (nat -> nat -> C))
          (solve : nat -> (nat -> nat -> C) -> (nat -> nat -> C) -> (nat -> nat -> C)).
  Context (HI : integrator I) (HC : chol_routine cholesky) (HS : tri_routine solve).
  (** A linear combination of the functions, and positive definiteness of the Gram matrix. *)
  Definition lcomb (fs : list (nfun P)) (c : nat -> C) (x : P) : C := csum (fun i => c i * nfn fs i x) (length fs).
  Definition gram_pd (fs : list (nfun P)) : Prop :=
    forall c : nat -> C, (exists i, (i < length fs)%nat /\ c i <> 0) -> (0 < Re (ip I (lcomb fs c) (lcomb fs c)))%R.

  Lemma ip_conj f g : ip I g f = Cconj (ip I f g).
  Proof. destruct HI as (HE & _ & HJ). unfold ip. rewrite <- HJ. apply HE. intros x. rewrite Cconj_mult, Cconj_conj. ring. Qed.
  Lemma ip_comb n m (c d : nat -> C) (f g : nat -> P -> C) :
    ip I (fun x => csum (fun i => c i * f i x) n) (fun x => csum (fun j => d j * g j x) m)
    = csum (fun i => csum (fun j => c i * Cconj (d j) * ip I (f i) (g j)) m) n.
  Proof.
    unfold ip. pose proof HI as (HE & _ & _).
    rewrite (HE _ (fun x => csum (fun i => csum (fun j => (c i * Cconj (d j)) * (f i x * Cconj (g j x))) m) n)).
    2:{ intros x. rewrite Cconj_csum, <- csum_scal_r. apply csum_ext. intros i _. rewrite <- csum_scal. apply csum_ext. intros j _. rewrite Cconj_mult. ring. }
    rewrite (integrator_sum I HI). apply csum_ext. intros i _. rewrite (integrator_sum I HI). apply csum_ext. intros j _. now rewrite (integrator_scal I HI).
  Qed.
  Lemma mass_entry fs i j : (i < length fs)%nat -> (j < length fs)%nat -> (j <= i)%nat ->
    cmass_matrix I (map neval fs) i j = ip I (nfn fs i) (nfn fs j).
  Proof.
    intros Hi Hj L. unfold cmass_matrix. destruct (Nat.leb_spec j i); [|lia]. unfold inner, product_integrand, conjugate_integrand. cbn [fold_left].
    assert (N : forall k, (k < length fs)%nat -> nth k (map neval fs) (fun _ => RtoC 0) = neval (nth k fs (NPrim 0 (fun _ => RtoC 0)))).
    { intros k Hk. rewrite (nth_indep _ (fun _ => RtoC 0) (neval (NPrim 0 (fun _ => RtoC 0)))) by (now rewrite map_length). apply map_nth. }
    rewrite !N by easy. reflexivity.
  Qed.
  Lemma mass_herm fs i j : (i < length fs)%nat -> (j < length fs)%nat -> herm (cmass_matrix I (map neval fs)) i j = ip I (nfn fs i) (nfn fs j).
  Proof.
    intros Hi Hj. unfold herm. destruct (Nat.leb_spec j i).
    - now apply mass_entry.
    - rewrite mass_entry by (try easy; lia). symmetry. apply ip_conj.
  Qed.
  Lemma mass_pd fs : gram_pd fs <-> pos_def (length fs) (cmass_matrix I (map neval fs)).
  Proof.
    assert (E : forall c, ip I (lcomb fs c) (lcomb fs c) = csum (fun i => csum (fun j => c i * Cconj (c j) * herm (cmass_matrix I (map neval fs)) i j) (length fs)) (length fs)).
    { intros c. unfold lcomb. rewrite ip_comb. apply csum_ext. intros i Hi. apply csum_ext. intros j Hj. now rewrite mass_herm. }
    split.
    - intros G. split.
      + intros i Hi. rewrite mass_entry by (try easy; lia). pose proof (ip_conj (nfn fs i) (nfn fs i)) as H. destruct (ip I (nfn fs i) (nfn fs i)) as [a b]. unfold Cconj in H. cbn in *. injection H as H. lra.
      + intros c Hc. rewrite <- E. now apply G.
    - intros [_ G] c Hc. rewrite E. now apply G.
  Qed.
  (** Whenever orthogonalize_basis returns, the Gram matrix is positive definite, the result is orthonormal, and the i-th new function
      is a combination of the first i+1 old ones and vice versa. *)
  Theorem C48_orthonormal k basis qs : eq_sound py_eq -> Forall lin_ok basis -> orthogonalize_basis I py_eq cholesky solve k basis = Ok qs ->
    gram_pd basis /\ length qs = length basis
    /\ (forall i j, (i < length basis)%nat -> (j < length basis)%nat -> ip I (nfn qs i) (nfn qs j) = if (i =? j)%nat then 1 else 0)
    /\ (forall i, (i < length basis)%nat -> exists c, forall x, nfn qs i x = csum (fun j => c j * nfn basis j x) (i + 1))
    /\ (forall i, (i < length basis)%nat -> exists c, forall x, nfn basis i x = csum (fun j => c j * nfn qs j x) (i + 1)).
  Proof.
    intros HE HF H. set (n := length basis). unfold orthogonalize_basis in H. fold n in H. set (M := cmass_matrix I (map neval basis)) in *.
    destruct (HC n M) as [HP HN]. destruct (Classical_Prop.classic (pos_def n M)) as [PD|NP]; [|rewrite (HN NP) in H; discriminate].
    split; [now apply mass_pd|]. destruct (HP PD) as (L & EL & LL & LD & LM). rewrite EL in H. cbn [bind] in H.
    assert (LN : forall i, (i < n)%nat -> L i i <> 0). { intros i Hi. destruct (LD i Hi) as (r & Hr & ->). intros E. apply RtoC_inj in E. lra. }
    set (X := solve n L (fun i j => if (i =? j)%nat then 1 else 0)) in *.
    assert (HX : forall i j, (i < n)%nat -> (j < n)%nat -> csum (fun p => L i p * X p j) n = if (i =? j)%nat then 1 else 0) by (intros i j Hi Hj; now apply HS).
    destruct (Rlt_dec (triu_norm n X) (/ 10 ^ 14)) as [_|]; [|discriminate].
    assert (LQ : length qs = n /\ forall i, (i < n)%nat -> linearly_combine py_eq k (map (X i) (seq 0 (i + 1))) (firstn (i + 1) basis) = Ok (nth i qs (NPrim 0 (fun _ => RtoC 0)))).
    { clear - H. clearbody X. assert (G : forall l qs, mapM (fun i => linearly_combine py_eq k (map (X i) (seq 0 (i + 1))) (firstn (i + 1) basis)) l = Ok qs -> length qs = length l
        /\ forall p, (p < length l)%nat -> linearly_combine py_eq k (map (X (nth p l 0%nat)) (seq 0 (nth p l 0%nat + 1))) (firstn (nth p l 0%nat + 1) basis) = Ok (nth p qs (NPrim 0 (fun _ => RtoC 0)))).
      { clear. induction l as [|a l IH]; intros qs H; cbn [mapM] in H.
        - assert (qs = []) as -> by congruence. split; [easy|cbn [length]; lia].
        - destruct (linearly_combine py_eq k (map (X a) (seq 0 (a + 1))) (firstn (a + 1) basis)) as [g|] eqn:Eg; [|discriminate]. cbn [bind] in H.
          destruct (mapM _ l) as [gs|]; [|discriminate]. cbn [bind] in H. assert (qs = g :: gs) as -> by congruence. destruct (IH gs eq_refl) as [L1 L2].
          split; [cbn [length]; lia|]. intros [|p] Hp; cbn [nth]; [exact Eg|]. apply L2. cbn [length] in Hp. lia. }
      destruct (G (seq 0 n) qs H) as [L1 L2]. rewrite seq_length in *. split; [easy|]. intros i Hi. specialize (L2 i Hi). now rewrite seq_nth in L2 by easy. }
    destruct LQ as [LQ QS]. split; [exact LQ|].
    assert (QE : forall i, (i < n)%nat -> forall x, nfn qs i x = csum (fun j => X i j * nfn basis j x) n).
    { intros i Hi x. destruct (combine_spec py_eq HE k _ _ _ (Forall_firstn _ _ _ HF) (QS i Hi)) as (_ & _ & EV).
      unfold nfn at 1. rewrite EV. rewrite firstn_length_le by (fold n; lia). rewrite (csum_tail (fun j => X i j * nfn basis j x) (i + 1) n); [|lia|].
      2:{ intros j Hj. rewrite (inv_lower n L X LL LN HX i j) by lia. ring. }
      apply csum_ext. intros j Hj. rewrite nth_map_seqC by lia. f_equal. unfold nfn. f_equal. rewrite <- (firstn_skipn (i + 1) basis) at 2. rewrite app_nth1; [easy|]. rewrite firstn_length_le by (fold n; lia). lia. }
    split; [|split].
    - intros i j Hi Hj. destruct HI as (HIE & _). unfold ip. rewrite (HIE _ (fun x => csum (fun p => X i p * nfn basis p x) n * Cconj (csum (fun p => X j p * nfn basis p x) n))) by (intros x; now rewrite !QE).
      change (ip I (fun x => csum (fun p => X i p * nfn basis p x) n) (fun x => csum (fun p => X j p * nfn basis p x) n) = if (i =? j)%nat then 1 else 0).
      rewrite ip_comb.
      rewrite (csum_ext _ (fun p => csum (fun r => csum (fun q => (X i p * L p q) * Cconj (X j r * L r q)) n) n)).
      2:{ intros p Hp. apply csum_ext. intros r Hr. rewrite <- mass_herm by easy. fold M. replace (herm M p r) with (csum (fun q => L p q * Cconj (L r q)) n).
          - rewrite <- csum_scal. apply csum_ext. intros q _. rewrite Cconj_mult. ring.
          - unfold herm. destruct (Nat.leb_spec r p); [now apply LM|]. rewrite <- (LM r p) by lia. rewrite Cconj_csum. apply csum_ext. intros q _. rewrite Cconj_mult, Cconj_conj. ring. }
      rewrite (csum_ext _ (fun p => csum (fun q => csum (fun r => (X i p * L p q) * Cconj (X j r * L r q)) n) n)) by (intros; apply csum_swap).
      rewrite csum_swap. rewrite (csum_ext _ (fun q => (if (i =? q)%nat then 1 else 0) * (if (j =? q)%nat then 1 else 0))).
      2:{ intros q Hq. rewrite <- (inv_left n L X LL LN HX i q Hi Hq). rewrite <- csum_scal_r. apply csum_ext. intros p Hp. rewrite csum_scal. f_equal.
          rewrite <- Cconj_csum, (inv_left n L X LL LN HX j q Hj Hq). destruct (j =? q)%nat; [apply Cconj_1|apply Cconj_0]. }
      rewrite (csum_single (fun q => (if (i =? q)%nat then RtoC 1 else RtoC 0) * (if (j =? q)%nat then RtoC 1 else RtoC 0)) n i Hi).
      2:{ intros q Hq N. destruct (Nat.eqb_spec i q); [lia|ring]. }
      rewrite Nat.eqb_refl, Nat.eqb_sym, Cmult_1_l. reflexivity.
    - intros i Hi. exists (X i). intros x. rewrite QE by easy. apply csum_tail; [lia|]. intros p Hp. rewrite (inv_lower n L X LL LN HX i p) by lia. ring.
    - intros i Hi. exists (L i). intros x.
      transitivity (csum (fun j => L i j * nfn qs j x) n); [|apply csum_tail; [lia|]; intros p Hp; rewrite LL by lia; ring].
      rewrite (csum_ext _ (fun j => csum (fun p => (L i j * X j p) * nfn basis p x) n)) by (intros j Hj; rewrite QE, <- csum_scal by easy; apply csum_ext; intros; ring).
      rewrite csum_swap. rewrite (csum_ext _ (fun p => (if (i =? p)%nat then 1 else 0) * nfn basis p x)) by (intros p Hp; rewrite csum_scal_r; now rewrite HX).
      rewrite (csum_single (fun p => (if (i =? p)%nat then RtoC 1 else RtoC 0) * nfn basis p x) n i Hi); [rewrite Nat.eqb_refl; ring|].
      intros q Hq N. destruct (Nat.eqb_spec i q); [lia|ring].
  Qed.
  (** It does return when the Gram matrix is positive definite, provided the first function is not itself a combination. *)
  Theorem C48_returns k id f basis : gram_pd (NPrim id f :: basis) -> exists qs, orthogonalize_basis I py_eq cholesky solve k (NPrim id f :: basis) = Ok qs.
  Proof.
    intros G. apply mass_pd in G. set (bs := NPrim id f :: basis) in *. unfold orthogonalize_basis. destruct (HC (length bs) (cmass_matrix I (map neval bs))) as [HP _].
    destruct (HP G) as (L & -> & LL & LD & _). cbn [bind]. set (n := length bs) in *.
    assert (LN : forall i, (i < n)%nat -> L i i <> 0). { intros i Hi. destruct (LD i Hi) as (r & Hr & ->). intros E. apply RtoC_inj in E. lra. }
    set (X := solve n L (fun i j => if (i =? j)%nat then 1 else 0)).
    assert (HX : forall i j, (i < n)%nat -> (j < n)%nat -> csum (fun p => L i p * X p j) n = if (i =? j)%nat then 1 else 0) by (intros i j Hi Hj; now apply HS).
    assert (Z : triu_norm n X = 0%R).
    { unfold triu_norm. rewrite rsum_0; [apply sqrt_0|]. intros i Hi. apply rsum_0. intros j Hj. destruct (Nat.ltb_spec i j); [|reflexivity]. rewrite (inv_lower n L X LL LN HX) by lia. rewrite Cmod_0. ring. }
    rewrite Z. destruct (Rlt_dec 0 (/ 10 ^ 14)) as [_|N]; [|exfalso; apply N; apply Rinv_0_lt_compat, pow_lt; lra].
    assert (HM : forall l, (forall i, In i l -> (i < n)%nat) -> exists qs, mapM (fun i => linearly_combine py_eq k (map (X i) (seq 0 (i + 1))) (firstn (i + 1) bs)) l = Ok qs).
    { induction l as [|a l IH]; intros Hl; [now exists []|]. destruct IH as [qs Hq]; [intros; apply Hl; now right|]. cbn [mapM].
      rewrite (C47_plain py_eq k _ _ id f).
      - cbn [bind]. rewrite Hq. eexists. reflexivity.
      - rewrite map_length, seq_length, firstn_length_le; [easy|]. specialize (Hl a (or_introl eq_refl)). fold n. lia.
      - rewrite Nat.add_1_r. now left. }
    apply HM. intros i Hi. apply in_seq in Hi. lia.
  Qed.
  (** Otherwise the Cholesky factorisation refuses. *)
  Theorem C48_refused k basis : ~ gram_pd basis -> orthogonalize_basis I py_eq cholesky solve k basis = Err LinAlgError.
  Proof. intros G. unfold orthogonalize_basis. destruct (HC (length basis) (cmass_matrix I (map neval basis))) as [_ HN]. rewrite HN; [easy|]. now rewrite <- mass_pd. Qed.
  (** The mass matrix: the lower triangle holds the inner products, the upper triangle their conjugates' mirror images. *)
  Theorem C48_mass_matrix basis i j : (i < length basis)%nat -> (j < length basis)%nat ->
    cmass_matrix I (map neval basis) i j = if (j <=? i)%nat then ip I (nfn basis i) (nfn basis j) else ip I (nfn basis j) (nfn basis i).
  Proof.
    intros Hi Hj. destruct (Nat.leb_spec j i).
    - now apply mass_entry.
    - rewrite <- (mass_entry basis j i) by (try easy; lia). unfold cmass_matrix. destruct (Nat.leb_spec j i), (Nat.leb_spec i j); try lia. reflexivity.
  Qed.
End C48.
(** The matrix returned by _mass_matrix is not the Gram matrix for complex functions: its upper triangle lacks the conjugation. *)
Theorem C48_mass_hermitian_refuted : exists (I : (unit -> C) -> C) (basis : list (nfun unit)), integrator I
  /\ cmass_matrix I (map neval basis) 0 1 = Ci /\ ip I (nfn basis 0) (nfn basis 1) = - Ci /\ Ci <> - Ci.
Proof.
  exists (fun f => f tt), [NPrim 0 (fun _ => RtoC 1); NPrim 1 (fun _ => Ci)]. split.
  { split; [auto|]. split; [auto|auto]. }
  split; [|split].
  - unfold cmass_matrix, inner, product_integrand, conjugate_integrand. cbn. unfold Cmult, Cconj, Ci, RtoC. cbn. f_equal; ring.
  - unfold ip, nfn. cbn. unfold Cmult, Cconj, Ci, RtoC, Copp. cbn. f_equal; ring.
  - unfold Ci, Copp. cbn. intros E. injection E as E. lra.
Qed.

(** ** Instances *)
Definition two_point (f : R -> C) : C := f (-1)%R + f 1%R.
Lemma two_point_integrator : integrator two_point.
Proof.
  unfold two_point. split; [|split].
  - intros f g H. now rewrite !H.
  - intros. ring.
  - intros. now rewrite Cconj_plus.
Qed.
Definition ex_basis : list (nfun R) := [NPrim 0 (fun _ => RtoC 1); NPrim 1 (fun x => RtoC x)].
Example C48_example_pd : gram_pd two_point ex_basis.
Proof.
  intros c (i & Hi & N). unfold ip, two_point, lcomb, ex_basis. cbn [length csum nfn nth neval]. unfold nfn. cbn [nth neval].
  destruct (c 0%nat) as [a0 b0] eqn:E0. destruct (c 1%nat) as [a1 b1] eqn:E1. unfold Re, Cmult, Cplus, Cconj, RtoC. cbn [fst snd].
  assert (P : (0 < a0 * a0 + b0 * b0 + a1 * a1 + b1 * b1)%R).
  { destruct (Req_dec a0 0) as [Z1|Z1]; [|nra]. destruct (Req_dec b0 0) as [Z2|Z2]; [|nra]. destruct (Req_dec a1 0) as [Z3|Z3]; [|nra]. destruct (Req_dec b1 0) as [Z4|Z4]; [|nra].
    exfalso. apply N. cbn [ex_basis length] in Hi. assert (i = 0 \/ i = 1)%nat as [-> | ->] by lia; [rewrite E0|rewrite E1]; subst; reflexivity. }
  match goal with |- (0 < ?e)%R => replace e with (2 * (a0 * a0 + b0 * b0 + a1 * a1 + b1 * b1))%R by ring end. lra.
Qed.
(** With routines as specified, {1, x} is orthonormalised for the rule f(-1) + f(1). *)
Example C48_example py_eq cholesky solve : eq_sound py_eq -> chol_routine cholesky -> tri_routine solve ->
  exists qs, orthogonalize_basis two_point py_eq cholesky solve true ex_basis = Ok qs
    /\ (nfn qs 0 (-1)%R * Cconj (nfn qs 1 (-1)%R) + nfn qs 0 1%R * Cconj (nfn qs 1 1%R) = 0).
Proof.
  intros HE HC HS. destruct (C48_returns two_point py_eq cholesky solve two_point_integrator HC HS true 0 (fun _ => RtoC 1) [NPrim 1 (fun x => RtoC x)] C48_example_pd) as [qs Hq].
  exists qs. split; [exact Hq|]. destruct (C48_orthonormal two_point py_eq cholesky solve two_point_integrator HC HS true ex_basis qs HE) as (_ & _ & O & _); [repeat constructor|exact Hq|].
  exact (O 0%nat 1%nat ltac:(cbn; lia) ltac:(cbn; lia)).
Qed.
(** Equality by identity of the (numbered) opaque functions is sound where the numbers identify them;
    "never equal" is always sound. *)
Example C47_eq_sound {P} : eq_sound (fun _ _ : nfun P => Ok false).
Proof. intros f g H. discriminate. Qed.
(** Flattening: 2 (b1 + 3 b2) + 5 (7 b1) = 37 b1 + 6 b2, for an equality test that recognises equal objects. *)
Example C47_flatten_example {P} (py_eq : nfun P -> nfun P -> res bool) (b1 b2 : nfun P) : (forall f, py_eq f f = Ok true) ->
  exists c1 c2, linearly_combine py_eq true [RtoC 2; RtoC 5] [NLin true [RtoC 1; RtoC 3] [b1; b2]; NLin true [RtoC 7] [b1]] = Ok (NLin true [c1; c2] [b1; b2])
   /\ c1 = RtoC 37 /\ c2 = RtoC 6.
Proof.
  intros R. unfold linearly_combine. cbn [flat_map as_lin app length Nat.eqb negb flatten_loop Nat.min firstn list_ne bind Nat.ltb Nat.leb skipn repeat Nat.sub].
  rewrite R. cbn [flat_map as_lin app length Nat.eqb negb flatten_loop Nat.min firstn list_ne bind Nat.ltb Nat.leb skipn repeat Nat.sub].
  unfold vecmat, mk_lin. cbn [length Nat.eqb bind seq map csum nth]. do 2 eexists. split; [reflexivity|].
  split; unfold RtoC, Cmult, Cplus; cbn [fst snd]; f_equal; ring.
Qed.
Print Assumptions C47_linear_combination.
Print Assumptions C47_plain.
Print Assumptions C47_flattened.
Print Assumptions C47_consistent_refuted.
Print Assumptions C48_orthonormal.
Print Assumptions C48_returns.
Print Assumptions C48_refused.
Print Assumptions C48_routines_exist.
Print Assumptions C48_mass_hermitian_refuted.
