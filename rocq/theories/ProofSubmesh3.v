(** * Submeshes of simplices: counting, and the three tables *)
From Coq Require Import List Arith Bool Reals Lra Lia Permutation.
From Verif Require Import Py PyToolsModel RSum ModelShapes ModelSpaces ModelNodes ModelSubmesh SpecIndex SpecGeometry SpecSubmesh EnumFacts ProofDiffPerm ProofSubmesh ProofSubmesh2.
Import ListNotations.
Local Open Scope nat_scope.

Lemma length_exchange {A B C} (f : A -> B -> list C) (la : list A) (lb : list B) :
  length (flat_map (fun a => flat_map (f a) lb) la) = total (map (fun b => length (flat_map (fun a => f a b) la)) lb).
Proof.
  induction la as [|a la IH]; cbn [flat_map].
  - induction lb as [|b lb IH]; [easy|]. cbn [map total fold_right length] in *. unfold total in IH. now rewrite <- IH.
  - rewrite app_length, IH. clear IH. induction lb as [|b lb IH]; [easy|]. cbn [flat_map map total fold_right]. rewrite !app_length. unfold total in *. lia.
Qed.
Lemma count_found nts ds n d top : simplex_lattice d n nts -> (forall o, In o ds -> length o = d /\ total o <= top) -> (exists o, In o ds /\ total o = top) ->
  length (flat_map (fun c => found nts c ds) nts) = length (filter (fun c => total c + top <=? n) nts).
Proof.
  intros (N & H) Ht (o0 & Ho0 & Et).
  assert (G : forall l, (forall c, In c l -> In c nts) -> length (flat_map (fun c => found nts c ds) l) = length (filter (fun c => total c + top <=? n) l)).
  { induction l as [|c l IH]; intros Hl; [easy|]. cbn [flat_map filter]. rewrite app_length, IH by (intros; apply Hl; now right). 
    assert (Hc : In c nts) by (apply Hl; now left). pose proof Hc as Hc'. apply H in Hc' as (Lc & Tc). unfold found. destruct (Nat.leb_spec (total c + top) n) as [X|X].
    - destruct (element_exists nts c ds) as (e & ->); [|easy]. intros o Ho. destruct (Ht o Ho) as (Lo & To). apply H. rewrite add_length, total_add by congruence. split; [easy|lia].
    - destruct (element_at nts c ds) as [e|] eqn:E; [|easy]. exfalso. pose proof (element_in nts c ds e E o0 Ho0) as I. destruct (Ht o0 Ho0) as (Lo & To). apply H in I as (_ & I). rewrite total_add in I by congruence. lia. }
  apply G. easy.
Qed.
Lemma count_lattice nts d n m : 1 <= d -> simplex_lattice d n nts -> length (filter (fun c => total c + m <=? n) nts) = comb (n + d - m) d.
Proof.
  intros Hd (N & H). destruct (Nat.le_gt_cases m n) as [X|X].
  - replace (n + d - m) with (n - m + d) by lia. rewrite <- gnitsam_length. apply Permutation_length. apply NoDup_Permutation; [now apply NoDup_filter|apply gnitsam_NoDup|].
    intros t. rewrite filter_In, gnitsam_in, H, Nat.leb_le. change (sum_nat t) with (total t). intuition lia.
  - rewrite comb_lt by lia. induction nts as [|c l IH] in |- *; [easy|]. cbn [filter]. destruct (Nat.leb_spec (total c + m) n); [lia|]. easy.
Qed.
Lemma comb_1 n : comb n 1 = n.
Proof. induction n; [easy|]. rewrite comb_S, IHn, comb_0_r. lia. Qed.
Lemma comb_2 n : 2 * comb (S n) 2 = n * (n + 1).
Proof. induction n; [easy|]. rewrite comb_S, comb_1. nia. Qed.
Lemma comb_3 n : 6 * comb (S (S n)) 3 = n * (n + 1) * (n + 2).
Proof. induction n; [easy|]. rewrite comb_S. pose proof (comb_2 (S n)). nia. Qed.

(** The tables. *)
Definition roots (d : nat) : list (list nat) :=
  match d with 1 => [[0]] | 2 => [[0]; [1]; [0; 1]] | 3 => [[0]; [1]; [2]; [0; 1]; [1; 2]; [0; 1; 2]] | _ => [] end.
Definition low (ds : list (list nat)) (l : list nat) : nat := fold_right Nat.min 1000 (map (rootf l) ds).
Definition table (d : nat) : list (list (list nat)) := match simplex_candidates d with Some t => t | None => [] end.
Ltac in_cases H := cbn in H; repeat (destruct H as [<-|H]); [..|destruct H].
Ltac dims := match goal with H : (1 <= ?d <= 3) |- _ => assert (d = 1 \/ d = 2 \/ d = 3) as [-> | [-> | ->]] by lia; clear H end.
Lemma table_len d : 1 <= d <= 3 -> forall ds o, In ds (table d) -> In o ds -> length o = d.
Proof. intros. dims; in_cases H0; in_cases H1; reflexivity. Qed.
Lemma table_roots d : 1 <= d <= 3 -> forall l, In l (roots d) -> Forall (fun i => i < d) l.
Proof. intros. dims; in_cases H0; repeat constructor. Qed.
Ltac exi := first [apply Exists_cons_hd; reflexivity | apply Exists_cons_tl; exi].
Lemma table_slab d : 1 <= d <= 3 -> forall ds l, In ds (table d) -> In l (roots d) -> Forall (fun o => low ds l <= rootf l o <= low ds l + 1) ds
     /\ Exists (fun o => rootf l o = low ds l) ds /\ Exists (fun o => rootf l o = low ds l + 1) ds.
Proof. intros. dims; in_cases H0; in_cases H1; (split; [repeat (apply Forall_cons; [vm_compute; lia|]); apply Forall_nil|split; exi]). Qed.
Ltac tuple_of c L := match type of L with
  | length _ = 1 => destruct c as [|?a [|]]; try discriminate L
  | length _ = 2 => destruct c as [|?a [|?a [|]]]; try discriminate L
  | length _ = 3 => destruct c as [|?a [|?a [|?a [|]]]]; try discriminate L end.
Lemma table_addr d : 1 <= d <= 3 -> forall c c' ds ds', length c = d -> length c' = d -> In ds (table d) -> In ds' (table d) ->
     (forall l, In l (roots d) -> rootf l c + low ds l = rootf l c' + low ds' l) -> c = c' /\ ds = ds'.
Proof.
  intros H c c' ds ds' Lc Lc' Hd Hd' E. dims.
  - tuple_of c Lc. tuple_of c' Lc'. pose proof (E [0] ltac:(cbn; tauto)) as E0. in_cases Hd; in_cases Hd'; cbn in E0. split; [f_equal; lia|easy].
  - tuple_of c Lc. tuple_of c' Lc'. pose proof (E [0] ltac:(cbn; tauto)) as E0. pose proof (E [1] ltac:(cbn; tauto)) as E1. pose proof (E [0; 1] ltac:(cbn; tauto)) as E2.
    in_cases Hd; in_cases Hd'; cbn in E0, E1, E2; try (exfalso; lia); (split; [repeat f_equal; lia|easy]).
  - tuple_of c Lc. tuple_of c' Lc'. pose proof (E [0] ltac:(cbn; tauto)) as E0. pose proof (E [1] ltac:(cbn; tauto)) as E1. pose proof (E [2] ltac:(cbn; tauto)) as E2.
    pose proof (E [0; 1] ltac:(cbn; tauto)) as E3. pose proof (E [1; 2] ltac:(cbn; tauto)) as E4. pose proof (E [0; 1; 2] ltac:(cbn; tauto)) as E5.
    in_cases Hd; in_cases Hd'; cbn in E0, E1, E2, E3, E4, E5; try (exfalso; lia); (split; [repeat f_equal; lia|easy]).
Qed.
Lemma table_vert d : 1 <= d <= 3 -> forall c ds v, length c = d -> length v = d -> In ds (table d) ->
     (forall l, In l (roots d) -> rootf l c + low ds l <= rootf l v <= rootf l c + low ds l + 1) -> In v (corners c ds).
Proof.
  intros H c ds v Lc Lv Hd E. dims.
  - tuple_of c Lc. tuple_of v Lv. pose proof (E [0] ltac:(cbn; tauto)) as E0. in_cases Hd; cbn in E0 |- *.
    assert (a0 = a + 0 \/ a0 = a + 1) as [-> | ->] by lia; tauto.
  - tuple_of c Lc. tuple_of v Lv. pose proof (E [0] ltac:(cbn; tauto)) as E0. pose proof (E [1] ltac:(cbn; tauto)) as E1. pose proof (E [0; 1] ltac:(cbn; tauto)) as E2.
    assert (X0 : a1 = a + 0 \/ a1 = a + 1) by (in_cases Hd; cbn in E0; lia). assert (X1 : a2 = a0 + 0 \/ a2 = a0 + 1) by (in_cases Hd; cbn in E1; lia).
    destruct X0 as [-> | ->], X1 as [-> | ->]; in_cases Hd; cbn in E2 |- *; first [exfalso; lia | tauto].
  - tuple_of c Lc. tuple_of v Lv. pose proof (E [0] ltac:(cbn; tauto)) as E0. pose proof (E [1] ltac:(cbn; tauto)) as E1. pose proof (E [2] ltac:(cbn; tauto)) as E2.
    pose proof (E [0; 1] ltac:(cbn; tauto)) as E3. pose proof (E [1; 2] ltac:(cbn; tauto)) as E4. pose proof (E [0; 1; 2] ltac:(cbn; tauto)) as E5.
    assert (X0 : a2 = a + 0 \/ a2 = a + 1) by (in_cases Hd; cbn in E0; lia). assert (X1 : a3 = a0 + 0 \/ a3 = a0 + 1) by (in_cases Hd; cbn in E1; lia). assert (X2 : a4 = a1 + 0 \/ a4 = a1 + 1) by (in_cases Hd; cbn in E2; lia).
    clear E E0 E1 E2. destruct X0 as [-> | ->], X1 as [-> | ->], X2 as [-> | ->]; in_cases Hd; cbn in E3, E4, E5 |- *; first [exfalso; lia | tauto].
Qed.
Lemma table_nodup d : 1 <= d <= 3 -> NoDup (table d).
Proof. intros. dims; repeat constructor; cbn; intuition discriminate. Qed.
Lemma table_ne d : 1 <= d <= 3 -> forall ds, In ds (table d) -> ds <> [].
Proof. intros. dims; in_cases H0; discriminate. Qed.
Lemma table_count d n nts : 1 <= d <= 3 -> 1 <= n -> simplex_lattice d n nts -> length (mesh (table d) nts) = n ^ d.
Proof.
  intros Hd Hn HL. unfold mesh. rewrite length_exchange.
  assert (G : forall ds top, In ds (table d) -> (forall o, In o ds -> total o <= top) -> (exists o, In o ds /\ total o = top) -> length (flat_map (fun c => found nts c ds) nts) = comb (n + d - top) d).
  { intros ds top I A B. rewrite (count_found nts ds n d top); [apply count_lattice; [lia|easy]|easy| |easy]. intros o Ho. split; [now apply (table_len d Hd ds)|now apply A]. }
  destruct n as [|n]; [lia|]. dims.
  - cbn [table simplex_candidates map total fold_right]. rewrite (G _ 1); [|cbn; tauto|intros o Ho; in_cases Ho; cbn; lia|exists [1]; cbn; tauto]. rewrite comb_1. cbn. lia.
  - cbn [table simplex_candidates map total fold_right]. rewrite (G _ 1); [|cbn; tauto|intros o Ho; in_cases Ho; cbn; lia|exists [1; 0]; cbn; tauto].
    rewrite (G _ 2); [|cbn; tauto|intros o Ho; in_cases Ho; cbn; lia|exists [1; 1]; cbn; tauto].
    replace (S n + 2 - 1) with (S (S n)) by lia. replace (S n + 2 - 2) with (S n) by lia. pose proof (comb_2 (S n)). pose proof (comb_2 n). cbn [Nat.pow]. nia.
  - cbn [table simplex_candidates map total fold_right]. rewrite (G _ 1); [|cbn; tauto|intros o Ho; in_cases Ho; cbn; lia|exists [1; 0; 0]; cbn; tauto].
    rewrite (G _ 2); [|cbn; tauto|intros o Ho; in_cases Ho; cbn; lia|exists [1; 0; 1]; cbn; tauto].
    rewrite (G _ 2); [|cbn; tauto|intros o Ho; in_cases Ho; cbn; lia|exists [1; 0; 1]; cbn; tauto].
    rewrite (G _ 2); [|cbn; tauto|intros o Ho; in_cases Ho; cbn; lia|exists [1; 0; 1]; cbn; tauto].
    rewrite (G _ 2); [|cbn; tauto|intros o Ho; in_cases Ho; cbn; lia|exists [1; 0; 1]; cbn; tauto].
    rewrite (G _ 3); [|cbn; tauto|intros o Ho; in_cases Ho; cbn; lia|exists [1; 1; 1]; cbn; tauto].
    replace (S n + 3 - 1) with (S (S (S n))) by lia. replace (S n + 3 - 2) with (S (S n)) by lia. replace (S n + 3 - 3) with (S n) by lia.
    pose proof (comb_3 (S n)). pose proof (comb_3 n). assert (H3 : 6 * comb (S n) 3 = (n - 1) * n * (n + 1)). { destruct n as [|n]; [easy|]. pose proof (comb_3 n). replace (S n - 1) with n by lia. nia. }
    assert (P : 6 * (comb (S (S (S n))) 3 + 4 * comb (S (S n)) 3 + comb (S n) 3) = 6 * S n ^ 3). { destruct n as [|n]; [reflexivity|]. replace (S n - 1) with n in H3 by lia. cbn [Nat.pow]. nia. } nia.
Qed.

(** ** Covering, in lattice coordinates *)
Local Open Scope R_scope.
Lemma nat_floor s : 0 <= s -> exists b, INR b <= s < INR b + 1.
Proof.
  intros H. destruct (archimed s) as [A1 A2]. exists (Z.to_nat (up s - 1)). assert (0 <= up s - 1)%Z. { assert (0 < up s)%Z; [|lia]. apply lt_IZR. lra. }
  rewrite INR_IZR_INZ, Z2Nat.id, minus_IZR by easy. cbn [IZR IPR]. lra.
Qed.
Lemma capped_floor n s : (1 <= n)%nat -> 0 <= s <= INR n -> exists b, INR b <= s <= INR b + 1 /\ (S b <= n)%nat /\ (s < INR b + 1 \/ S b = n).
Proof.
  intros Hn [H0 H1]. destruct (nat_floor s H0) as (b & B). destruct (Nat.le_gt_cases (S b) n) as [X|X].
  - exists b. split; [lra|]. split; [easy|lra].
  - exists (n - 1)%nat. apply le_INR in X as Y. rewrite !S_INR in Y. assert (n <= b)%nat by lia. apply le_INR in H. rewrite minus_INR by lia. cbn [INR]. split; [lra|]. split; [lia|right; lia].
Qed.
(** Monotone. *)
Lemma floors_mono n s t b b' : s <= t -> INR b <= s -> t <= INR b' + 1 -> (S b <= n)%nat -> (t < INR b' + 1 \/ S b' = n) -> (b <= b')%nat.
Proof.
  intros H1 H2 H3 H4 H5. destruct (Nat.le_gt_cases b b') as [X|X]; [easy|]. assert (X' : (S b' <= b)%nat) by lia. apply le_INR in X'. rewrite S_INR in X'. destruct H5 as [H5|H5]; [lra|]. lia.
Qed.
Ltac fa := repeat (apply Forall_cons; [lra|]); apply Forall_nil.
Ltac idx i H := repeat (destruct i as [|i]; [|try lia]); try lia.
Ltac cover_with c k w :=
  exists c; eexists (nth k _ []); exists w; split; [reflexivity|]; split; [apply nth_In; cbn; lia|];
  split; [let o := fresh "o" in let Ho := fresh in intros o Ho; in_cases Ho; cbn [total fold_right]; lia|]; split; [reflexivity|]; split; [fa|]; split; [cbn; lra|];
  let i := fresh "i" in let Hi := fresh in intros i Hi; idx i Hi;  unfold avg, corners; cbn [table simplex_candidates nth map add_tuples combine list_sum fold_right]; rewrite ?plus_INR; cbn [INR]; lra.
Lemma cover1 n : (1 <= n)%nat -> forall y, length y = 1%nat -> Forall (Rle 0) y -> list_sum y <= INR n -> exists c ds w, length c = 1%nat /\ In ds (table 1) /\ (forall o, In o ds -> (total c + total o <= n)%nat)
     /\ length w = length ds /\ Forall (Rle 0) w /\ list_sum w = 1 /\ forall i, (i < 1)%nat -> avg w (corners c ds) (fun v => nth i v 0%nat) = nth i y 0.
Proof.
  intros Hn y L F S. destruct y as [|y1 [|]]; try discriminate. inversion F; subst. cbn in S. destruct (capped_floor n y1 Hn ltac:(lra)) as (b & B1 & B2 & _).
  cover_with [b] 0%nat [1 - (y1 - INR b); y1 - INR b].
Qed.
Lemma cover2 n : (1 <= n)%nat -> forall y, length y = 2%nat -> Forall (Rle 0) y -> list_sum y <= INR n -> exists c ds w, length c = 2%nat /\ In ds (table 2) /\ (forall o, In o ds -> (total c + total o <= n)%nat)
     /\ length w = length ds /\ Forall (Rle 0) w /\ list_sum w = 1 /\ forall i, (i < 2)%nat -> avg w (corners c ds) (fun v => nth i v 0%nat) = nth i y 0.
Proof.
  intros Hn y L F S. destruct y as [|y1 [|y2 [|]]]; try discriminate. inversion F as [|? ? P1 F1]; subst. inversion F1 as [|? ? P2 F2]; subst. cbn in S. 
  destruct (capped_floor n y1 Hn ltac:(lra)) as (b1 & B1 & C1 & D1). destruct (capped_floor n (y1 + y2) Hn ltac:(lra)) as (b2 & B2 & C2 & D2).
  pose proof (floors_mono n y1 (y1 + y2) b1 b2 ltac:(lra) ltac:(lra) ltac:(lra) C1 D2) as M.
  destruct (Rle_dec (y1 - INR b1) (y1 + y2 - INR b2)) as [O|O].
  - assert (b2 = b1 + (b2 - b1))%nat as E by lia. set (p := (b2 - b1)%nat) in *. clearbody p. subst b2. rewrite plus_INR in *.
    cover_with [b1; p] 0%nat [1 - (y1 + y2 - INR b1 - INR p); y1 - INR b1; y2 - INR p].
  - assert (b1 <> b2) by (intros ->; lra). assert (b2 = b1 + (b2 - b1 - 1) + 1)%nat as E by lia. set (p := (b2 - b1 - 1)%nat) in *. clearbody p. subst b2. rewrite !plus_INR in *. cbn [INR] in *.
    (* vertices 01 (p0), 10, 11 of the square at (b1, p) *)
    cover_with [b1; p] 1%nat [y1 - INR b1 - (y1 + y2 - INR b1 - INR p - 1); y1 + y2 - INR b1 - INR p - 1; 1 - (y1 - INR b1)].
Qed.
Lemma cover3 n : (1 <= n)%nat -> forall y, length y = 3%nat -> Forall (Rle 0) y -> list_sum y <= INR n -> exists c ds w, length c = 3%nat /\ In ds (table 3) /\ (forall o, In o ds -> (total c + total o <= n)%nat)
     /\ length w = length ds /\ Forall (Rle 0) w /\ list_sum w = 1 /\ forall i, (i < 3)%nat -> avg w (corners c ds) (fun v => nth i v 0%nat) = nth i y 0.
Proof.
  intros Hn y L F S. destruct y as [|y1 [|y2 [|y3 [|]]]]; try discriminate. inversion F as [|? ? P1 F1]; subst. inversion F1 as [|? ? P2 F2]; subst. inversion F2 as [|? ? P3 F3]; subst. cbn in S. 
  assert (exists s1 s2 s3, s1 = y1 /\ s2 = y1 + y2 /\ s3 = y1 + y2 + y3) as (s1 & s2 & s3 & E1 & E2 & E3) by (repeat eexists).
  destruct (capped_floor n s1 Hn ltac:(lra)) as (b1 & B1 & C1 & D1). destruct (capped_floor n s2 Hn ltac:(lra)) as (b2 & B2 & C2 & D2). destruct (capped_floor n s3 Hn ltac:(lra)) as (b3 & B3 & C3 & D3).
  pose proof (floors_mono n s1 s2 b1 b2 ltac:(lra) ltac:(lra) ltac:(lra) C1 D2) as M1. pose proof (floors_mono n s2 s3 b2 b3 ltac:(lra) ltac:(lra) ltac:(lra) C2 D3) as M2.
  clear D1 D2 D3. destruct (Rle_dec (s1 - INR b1) (s2 - INR b2)) as [O12|O12], (Rle_dec (s2 - INR b2) (s3 - INR b3)) as [O23|O23].
  - (* 3 2 1 *) assert (b2 = b1 + (b2 - b1))%nat as E by lia. set (p := (b2 - b1)%nat) in *. clearbody p. subst b2. assert (b3 = b1 + p + (b3 - b1 - p))%nat as E by lia. set (q := (b3 - b1 - p)%nat) in *. clearbody q. subst b3. rewrite !plus_INR in *.
    cover_with [b1; p; q] 0%nat [1 - (s3 - INR b1 - INR p - INR q); s1 - INR b1; s2 - INR b1 - INR p - (s1 - INR b1); s3 - INR b1 - INR p - INR q - (s2 - INR b1 - INR p)].
  - (* f1 <= f2 > f3 *) assert (b2 <> b3) by (intros ->; lra). assert (b2 = b1 + (b2 - b1))%nat as E by lia. set (p := (b2 - b1)%nat) in *. clearbody p. subst b2. assert (b3 = b1 + p + (b3 - b1 - p - 1) + 1)%nat as E by lia. set (q := (b3 - b1 - p - 1)%nat) in *. clearbody q. subst b3. rewrite !plus_INR in *. cbn [INR] in *.
    remember (s1 - INR b1) as f1. remember (s2 - (INR b1 + INR p)) as f2. remember (s3 - (INR b1 + INR p + INR q + 1)) as f3.
    destruct (Rle_dec f1 f3) as [O13|O13].
    + cover_with [b1; p; q] 2%nat [f1; f3 - f1; f2 - f3; 1 - f2].
    + cover_with [b1; p; q] 1%nat [f3; f1 - f3; 1 - f2; f2 - f1].
  - (* f1 > f2 <= f3 *) assert (b1 <> b2) by (intros ->; lra). assert (b2 = b1 + (b2 - b1 - 1) + 1)%nat as E by lia. set (p := (b2 - b1 - 1)%nat) in *. clearbody p. subst b2. assert (b3 = b1 + p + 1 + (b3 - b1 - p - 1))%nat as E by lia. set (q := (b3 - b1 - p - 1)%nat) in *. clearbody q. subst b3. rewrite !plus_INR in *. cbn [INR] in *.
    remember (s1 - INR b1) as f1. remember (s2 - (INR b1 + INR p + 1)) as f2. remember (s3 - (INR b1 + INR p + 1 + INR q)) as f3.
    destruct (Rle_dec f1 f3) as [O13|O13].
    + cover_with [b1; p; q] 4%nat [f3 - f1; 1 - f3; f2; f1 - f2].
    + cover_with [b1; p; q] 3%nat [f1 - f3; 1 - f1; f3 - f2; f2].
  - (* f1 > f2 > f3 *) assert (b1 <> b2) by (intros ->; lra). assert (b2 <> b3) by (intros ->; lra). assert (b2 = b1 + (b2 - b1 - 1) + 1)%nat as E by lia. set (p := (b2 - b1 - 1)%nat) in *. clearbody p. subst b2. assert (b3 = b1 + p + 1 + (b3 - b1 - p - 2) + 1)%nat as E by lia. set (q := (b3 - b1 - p - 2)%nat) in *. clearbody q. subst b3. rewrite !plus_INR in *. cbn [INR] in *.
    remember (s1 - INR b1) as f1. remember (s2 - (INR b1 + INR p + 1)) as f2. remember (s3 - (INR b1 + INR p + 1 + INR q + 1)) as f3.
    cover_with [b1; p; q] 5%nat [1 - f1; f3; f1 - f2; f2 - f3].
Qed.
