(** * Proofs for construction.py: linear combinations and orthogonalisation *)
From Coq Require Import Reals.
From Coquelicot Require Import Coquelicot.
From Coq Require Import List Arith Bool Lia Lra.
From Verif Require Import Py RSum ModelConstruction.
Import ListNotations.
Local Open Scope C_scope.

(** ** Sums *)
Lemma csum_ext (f g : nat -> C) n : (forall k, (k < n)%nat -> f k = g k) -> csum f n = csum g n.
Proof. induction n as [|n IH]; intros H; cbn [csum]; [easy|]. rewrite IH, H by (intros; auto with arith). easy. Qed.
Lemma csum_0 (f : nat -> C) n : (forall k, (k < n)%nat -> f k = 0) -> csum f n = 0.
Proof. induction n as [|n IH]; intros H; cbn [csum]; [easy|]. rewrite IH, H by (intros; auto with arith). ring. Qed.
Lemma csum_plus (f g : nat -> C) n : csum (fun k => f k + g k) n = csum f n + csum g n.
Proof. induction n as [|n IH]; cbn [csum]; [ring|rewrite IH; ring]. Qed.
Lemma csum_scal (c : C) (f : nat -> C) n : csum (fun k => c * f k) n = c * csum f n.
Proof. induction n as [|n IH]; cbn [csum]; [ring|rewrite IH; ring]. Qed.
Lemma csum_scal_r (c : C) (f : nat -> C) n : csum (fun k => f k * c) n = csum f n * c.
Proof. induction n as [|n IH]; cbn [csum]; [ring|rewrite IH; ring]. Qed.
Lemma csum_swap (f : nat -> nat -> C) n m : csum (fun i => csum (fun j => f i j) m) n = csum (fun j => csum (fun i => f i j) n) m.
Proof.
  induction n as [|n IH]; cbn [csum]; [symmetry; now apply csum_0|]. now rewrite IH, <- csum_plus.
Qed.
Lemma csum_shift (f : nat -> C) n : csum f (S n) = f 0%nat + csum (fun k => f (S k)) n.
Proof. induction n as [|n IH]; [cbn [csum]; ring|]. change (csum f (S (S n))) with (csum f (S n) + f (S n)). rewrite IH. cbn [csum]. ring. Qed.
Lemma csum_single (f : nat -> C) n k : (k < n)%nat -> (forall j, (j < n)%nat -> j <> k -> f j = 0) -> csum f n = f k.
Proof.
  revert k. induction n as [|n IH]; intros k Hk H; [lia|]. cbn [csum]. destruct (Nat.eq_dec k n) as [->|N].
  - rewrite csum_0; [ring|]. intros j Hj. apply H; lia.
  - rewrite (IH k), (H n) by (try lia; intros; apply H; lia). ring.
Qed.
Lemma csum_tail (f : nat -> C) n m : (n <= m)%nat -> (forall k, (n <= k < m)%nat -> f k = 0) -> csum f m = csum f n.
Proof.
  intros L H. induction m as [|m IH]; [now replace n with 0%nat by lia|]. destruct (Nat.eq_dec n (S m)) as [->|N]; [easy|].
  cbn [csum]. rewrite IH, (H m) by (try lia; intros; apply H; lia). ring.
Qed.
Lemma Cconj_plus a b : Cconj (a + b) = Cconj a + Cconj b.
Proof. unfold Cconj, Cplus. cbn. f_equal. ring. Qed.
Lemma Cconj_mult a b : Cconj (a * b) = Cconj a * Cconj b.
Proof. unfold Cconj, Cmult. cbn. f_equal; ring. Qed.
Lemma Cconj_conj a : Cconj (Cconj a) = a.
Proof. unfold Cconj. destruct a as [x y]. cbn. f_equal. ring. Qed.
Lemma Cconj_0 : Cconj 0 = 0.
Proof. unfold Cconj, RtoC. cbn. f_equal. ring. Qed.
Lemma Cconj_1 : Cconj 1 = 1.
Proof. unfold Cconj, RtoC. cbn. f_equal. ring. Qed.
Lemma Cconj_csum f n : Cconj (csum f n) = csum (fun k => Cconj (f k)) n.
Proof. induction n as [|n IH]; cbn [csum]; [apply Cconj_0|]. now rewrite Cconj_plus, IH. Qed.
Lemma nth_map_seqC {A} (f : nat -> A) n k d : (k < n)%nat -> nth k (map f (seq 0 n)) d = f k.
Proof. intros H. rewrite (nth_indep _ d (f 0%nat)) by (rewrite map_length, seq_length; lia). rewrite map_nth, seq_nth by easy. reflexivity. Qed.

Section Lin.
  Context {P : Type}.
  Notation dflt := (NPrim 0 (fun _ : P => RtoC 0)).
  Lemma neval_lin k cs fs x : length cs = length fs ->
    @neval P (NLin k cs fs) x = csum (fun i => nth i cs 0 * neval (nth i fs dflt) x) (length fs).
  Proof.
    intros L. cbn [neval].
    assert (G : forall fs cs acc, length cs = length fs ->
      (fix go (cs0 : list C) (fs0 : list (nfun P)) (acc0 : C) {struct fs0} : C :=
         match fs0, cs0 with g :: fs', c :: cs' => go cs' fs' (acc0 + c * neval g x) | _, _ => acc0 end) cs fs acc
      = acc + csum (fun i => nth i cs 0 * neval (nth i fs dflt) x) (length fs)).
    { clear. induction fs as [|f fs IH]; intros [|c cs] acc L; try discriminate; [cbn [length csum]; ring|].
      cbn [length] in L |- *. rewrite csum_shift. cbn [nth]. rewrite IH by lia. ring. }
    rewrite G by easy. ring.
  Qed.

  Section Combine.
    Context (py_eq : nfun P -> nfun P -> res bool).
    (** objects that compare equal are the same function *)
    Context (Heq : forall f g, py_eq f g = Ok true -> forall x, neval f x = neval g x).
    Lemma list_ne_false xs : forall ys, list_ne py_eq xs ys = Ok false ->
      length xs = length ys /\ forall k x, (k < length xs)%nat -> neval (nth k xs dflt) x = neval (nth k ys dflt) x.
    Proof.
      induction xs as [|a xs IH]; intros [|b ys] H; try discriminate; [split; [easy|intros; cbn [length] in *; lia]|].
      cbn [list_ne] in H. destruct (py_eq a b) as [e|] eqn:E; [|discriminate]. cbn [bind] in H. destruct e; [|discriminate].
      destruct (IH ys H) as [L X]. split; [cbn [length]; lia|]. intros [|k] x Hk; cbn [nth]; [now apply Heq|apply X; cbn [length] in Hk; lia].
    Qed.
    (** What the loop has established about the combinations seen so far. *)
    Definition row_ok (n : nat) (basis : list (nfun P)) (lc : bool * list C * list (nfun P)) (row : list C) : Prop :=
      let '(k, cs, fs) := lc in
      (length cs <= n)%nat /\ row = cs ++ repeat (RtoC 0) (n - length cs) /\ (length fs <= length basis)%nat
      /\ forall i x, (i < length fs)%nat -> neval (nth i basis dflt) x = neval (nth i fs dflt) x.
    Lemma row_ok_app n basis more lc row : row_ok n basis lc row -> row_ok n (basis ++ more) lc row.
    Proof.
      destruct lc as [[k cs] fs]. intros (H1 & H2 & H3 & H4). split; [easy|]. split; [easy|]. split; [rewrite app_length; lia|].
      intros i x Hi. rewrite app_nth1 by lia. now apply H4.
    Qed.
    Lemma flatten_spec n lcs : forall done basis rows b' r',
      Forall2 (row_ok n basis) done rows -> flatten_loop py_eq n lcs basis rows = Ok (Some (b', r')) ->
      Forall2 (row_ok n b') (done ++ lcs) r'.
    Proof.
      induction lcs as [|[[k cs] fs] lcs IH]; intros done basis rows b' r' HD H; cbn [flatten_loop] in H.
      - rewrite app_nil_r. match goal with H : Ok (Some (?x, ?y)) = _ |- _ => assert (b' = x /\ r' = y) as [-> ->] by (split; congruence) end. exact HD.
      - destruct k; [|discriminate]. set (nc := Nat.min (length basis) (length fs)) in *.
        destruct (list_ne py_eq (firstn nc basis) (firstn nc fs)) as [d|] eqn:E; [|discriminate]. cbn [bind] in H. destruct d; [discriminate|].
        destruct (Nat.ltb_spec n (length cs)) as [|Hn]; [discriminate|].
        replace (done ++ (true, cs, fs) :: lcs) with ((done ++ [(true, cs, fs)]) ++ lcs) by (now rewrite <- app_assoc).
        eapply IH; [|exact H]. apply Forall2_app.
        + clear - HD. induction HD; constructor; [now apply row_ok_app|easy].
        + constructor; [|constructor]. destruct (list_ne_false _ _ E) as [L X].
          assert (LB : length (firstn nc basis) = nc) by (apply firstn_length_le; unfold nc; lia).
          split; [exact Hn|]. split; [easy|]. split; [rewrite app_length, skipn_length; unfold nc; lia|].
          intros i x Hi. destruct (Nat.ltb_spec i nc) as [Hc|Hc].
          * rewrite app_nth1 by (unfold nc in Hc; lia). specialize (X i x ltac:(lia)).
            assert (NF : forall l : list (nfun P), nth i (firstn nc l) dflt = nth i l dflt).
            { intros l. rewrite <- (firstn_skipn nc l) at 2. destruct (Nat.ltb_spec i (length (firstn nc l))) as [Q|Q]; [now rewrite app_nth1|].
              rewrite (nth_overflow (firstn nc l)) by easy. rewrite nth_overflow; [easy|]. rewrite firstn_skipn. rewrite firstn_length in Q. lia. }
            now rewrite !NF in X.
          * assert (nc = length basis) by (unfold nc in *; lia). rewrite app_nth2 by lia. rewrite H0.
            rewrite <- (firstn_skipn (length basis) fs) at 2. rewrite app_nth2; rewrite firstn_length_le by lia; [easy|lia].
    Qed.
    (** [__post_init__] held for every linear combination. *)
    Definition lin_ok (f : nfun P) : Prop := match f with NPrim _ _ => True | NLin _ cs fs => length cs = length fs end.
    Lemma mk_lin_spec k cs (fs : list (nfun P)) g : mk_lin k cs fs = Ok g -> length cs = length fs /\ g = NLin k cs fs.
    Proof. unfold mk_lin. destruct (Nat.eqb_spec (length cs) (length fs)); [|discriminate]. intros H. split; [easy|congruence]. Qed.
    Lemma combine_spec k cs fs g : Forall lin_ok fs -> linearly_combine py_eq k cs fs = Ok g ->
      length cs = length fs /\ lin_ok g /\ forall x, neval g x = csum (fun i => nth i cs 0 * neval (nth i fs dflt) x) (length fs).
    Proof.
      intros HF H. unfold linearly_combine in H.
      assert (U : mk_lin k cs fs = Ok g -> length cs = length fs /\ lin_ok g /\ forall x, neval g x = csum (fun i => nth i cs 0 * neval (nth i fs dflt) x) (length fs)).
      { intros E. destruct (mk_lin_spec _ _ _ _ E) as [L ->]. split; [easy|]. split; [exact L|]. intros x. now apply neval_lin. }
      destruct (Nat.eqb_spec (length (flat_map as_lin fs)) (length fs)) as [LF|]; cbn [negb] in H; [|now apply U].
      assert (M : fs = map (fun lc => NLin (fst (fst lc)) (snd (fst lc)) (snd lc)) (flat_map as_lin fs)).
      { clear - LF. assert (B : forall l : list (nfun P), (length (flat_map as_lin l) <= length l)%nat).
        { induction l as [|a l IH]; [easy|]. cbn [flat_map]. rewrite app_length. destruct a; cbn [as_lin length]; lia. }
        induction fs as [|a fs IH]; [easy|]. cbn [flat_map] in *. rewrite app_length in LF. destruct a as [id f|kk c ff]; cbn [as_lin length app map fst snd] in *; [specialize (B fs); lia|].
        f_equal. apply IH. lia. }
      set (lcs := flat_map as_lin fs) in *. set (n := length lcs) in *.
      destruct (flatten_loop py_eq n lcs [] []) as [[[b r]|]|] eqn:E; [..|discriminate]; cbn [bind] in H; [|now apply U].
      pose proof (flatten_spec n lcs [] [] [] b r (Forall2_nil _) E) as F. cbn [app] in F.
      unfold vecmat in H. destruct (Nat.eqb_spec (length cs) n) as [LC|]; [|discriminate]. cbn [bind] in H.
      destruct (mk_lin_spec _ _ _ _ H) as [L ->]. rewrite map_length, seq_length in L. split; [lia|]. split; [cbn [lin_ok]; now rewrite map_length, seq_length|].
      intros x. rewrite neval_lin by (now rewrite map_length, seq_length). rewrite <- L, <- LF.
      rewrite (csum_ext _ (fun kk => csum (fun i => nth i cs 0 * (nth kk (nth i r []) 0 * neval (nth kk b dflt) x)) n)).
      2:{ intros kk Hk. rewrite nth_map_seqC by easy. rewrite <- csum_scal_r. apply csum_ext. intros; ring. }
      rewrite csum_swap. apply csum_ext. intros i Hi. rewrite csum_scal. f_equal.
      assert (RO : row_ok n b (nth i lcs (true, [], [])) (nth i r [])).
      { assert (Hi2 : (i < length lcs)%nat) by exact Hi. clear - F Hi2. clearbody n lcs. rename Hi2 into Hi. revert i Hi. induction F as [|a c l l' H HF IH]; intros i Hi; [cbn [length] in Hi; lia|]. destruct i as [|i]; [easy|]. cbn [nth length] in *. apply IH. lia. }
      destruct (nth i lcs (true, [], [])) as [[kk c] ff] eqn:EN. destruct RO as (R1 & R2 & R3 & R4).
      assert (EI : nth i fs dflt = NLin kk c ff).
      { rewrite M. rewrite (nth_indep _ dflt ((fun lc => NLin (fst (fst lc)) (snd (fst lc)) (snd lc)) (true, [], []))) by (rewrite map_length; exact Hi). refine (eq_trans (map_nth (fun lc => NLin (fst (fst lc)) (snd (fst lc)) (snd lc)) lcs (true, [], []) i) _). now rewrite EN. }
      assert (OK : length c = length ff).
      { rewrite Forall_forall in HF. specialize (HF (NLin kk c ff)). cbn [lin_ok] in HF. apply HF. rewrite <- EI. apply nth_In. lia. }
      rewrite EI, neval_lin by easy. rewrite R2.
      transitivity (csum (fun j => nth j (c ++ repeat (RtoC 0) (n - length c)) 0 * neval (nth j b dflt) x) (length ff)); [apply csum_tail; [lia|]|].
      - intros j Hj. rewrite app_nth2 by lia. replace (nth (j - length c) (repeat (RtoC 0) (n - length c)) 0) with (RtoC 0); [ring|].
        symmetry. clear. generalize (j - length c)%nat (n - length c)%nat. intros a m. revert a. induction m as [|m IH]; intros [|a]; cbn [repeat nth]; auto.
      - apply csum_ext. intros j Hj. rewrite app_nth1 by lia. rewrite R4 by easy. reflexivity.
    Qed.
  End Combine.
End Lin.

(** ** Triangular matrices *)
Section Tri.
  Context (n : nat) (L X : nat -> nat -> C).
  Context (Llow : forall i j, (i < j < n)%nat -> L i j = 0) (Ldiag : forall i, (i < n)%nat -> L i i <> 0).
  Lemma Cmult_integral_l (a b : C) : a * b = 0 -> a <> 0 -> b = 0.
  Proof. intros H N. transitivity (/ a * (a * b)); [field; easy|]. rewrite H. ring. Qed.
  Lemma csum_last (f : nat -> C) i : (i < n)%nat -> (forall k, (i < k < n)%nat -> f k = 0) -> csum f n = csum f i + f i.
  Proof. intros Hi H. rewrite (csum_tail f (S i) n) by (try lia; intros; apply H; lia). reflexivity. Qed.
  (** Forward substitution: L Z = 0 above row m forces Z = 0 there. *)
  Lemma forward (Z : nat -> C) m : (m <= n)%nat -> (forall i, (i < m)%nat -> csum (fun k => L i k * Z k) n = 0) -> forall i, (i < m)%nat -> Z i = 0.
  Proof.
    intros Hm H. intros i. induction i as [i IH] using (well_founded_induction lt_wf). intros Hi.
    pose proof (H i Hi) as E. rewrite (csum_last _ i) in E by (try lia; intros k Hk; rewrite Llow by lia; ring).
    rewrite csum_0 in E by (intros k Hk; rewrite IH by lia; ring). apply (Cmult_integral_l (L i i)); [|apply Ldiag; lia]. rewrite <- E. ring.
  Qed.
  Context (HX : forall i j, (i < n)%nat -> (j < n)%nat -> csum (fun k => L i k * X k j) n = if (i =? j)%nat then 1 else 0).
  Lemma inv_lower i j : (i < j < n)%nat -> X i j = 0.
  Proof.
    intros H. apply (forward (fun k => X k j) j); [lia| |lia]. intros k Hk. rewrite HX by lia. destruct (Nat.eqb_spec k j); [lia|easy].
  Qed.
  Lemma inv_left i j : (i < n)%nat -> (j < n)%nat -> csum (fun k => X i k * L k j) n = if (i =? j)%nat then 1 else 0.
  Proof.
    intros Hi Hj.
    assert (Z : csum (fun k => X i k * L k j) n - (if (i =? j)%nat then 1 else 0) = 0).
    { apply (forward (fun r => csum (fun k => X r k * L k j) n - (if (r =? j)%nat then 1 else 0)) n); [lia| |easy]. intros r Hr.
      rewrite (csum_ext _ (fun p => csum (fun k => L r p * X p k * L k j) n + - (L r p * (if (p =? j)%nat then 1 else 0)))).
      2:{ intros p Hp. unfold Cminus. rewrite Cmult_plus_distr_l. f_equal; [|ring]. rewrite <- csum_scal. apply csum_ext. intros; ring. }
      rewrite csum_plus. rewrite csum_swap.
      rewrite (csum_ext (fun k => csum (fun p => L r p * X p k * L k j) n) (fun k => (if (r =? k)%nat then 1 else 0) * L k j)).
      2:{ intros k Hk. rewrite csum_scal_r. now rewrite HX. }
      rewrite (csum_single (fun k => (if (r =? k)%nat then RtoC 1 else RtoC 0) * L k j) n r Hr).
      2:{ intros q Hq N. destruct (Nat.eqb_spec r q); [lia|ring]. }
      rewrite (csum_single (fun p => - (L r p * (if (p =? j)%nat then RtoC 1 else RtoC 0))) n j Hj).
      2:{ intros q Hq N. destruct (Nat.eqb_spec q j); [lia|ring]. }
      rewrite !Nat.eqb_refl. ring. }
    match type of Z with ?a - ?b = _ => transitivity ((a - b) + b); [ring|rewrite Z; ring] end.
  Qed.
End Tri.
