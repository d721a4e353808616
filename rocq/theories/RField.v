(** * The real numbers as a mathcomp field

    Coq's axiomatic reals satisfy the field axioms; equality is decidable by
    [Req_EM_T] and a choice function exists by [constructive_indefinite_description].
    No code of modepy is modelled here. *)
From Coq Require Import Reals ClassicalEpsilon Lra.
From mathcomp Require Import all_ssreflect all_algebra.
Set Implicit Arguments.
Unset Strict Implicit.
Unset Printing Implicit Defensive.

Notation RR := Rdefinitions.R.

Definition eqr (x y : RR) : bool := if Req_EM_T x y then true else false.
Lemma eqrP : Equality.axiom eqr.
Proof. move=> x y; rewrite /eqr; case: (Req_EM_T x y) => h; [exact: ReflectT | exact: ReflectF]. Qed.
Canonical R_eqMixin := EqMixin eqrP.
Canonical R_eqType := Eval hnf in EqType RR R_eqMixin.

Definition R_find (P : pred RR) (n : nat) : option RR :=
  match excluded_middle_informative (exists x, P x) with
  | left h => Some (proj1_sig (constructive_indefinite_description _ h))
  | right _ => None
  end.
Lemma R_find_correct P n x : R_find P n = Some x -> P x.
Proof.
  rewrite /R_find; case: excluded_middle_informative => // h [] <-.
  exact: (proj2_sig (constructive_indefinite_description _ h)).
Qed.
Lemma R_find_complete (P : pred RR) : (exists x, P x) -> exists n, R_find P n.
Proof. by move=> h; exists O; rewrite /R_find; case: excluded_middle_informative. Qed.
Lemma R_find_ext (P Q : pred RR) : P =1 Q -> R_find P =1 R_find Q.
Proof.
  move=> e n. have -> : P = Q by apply: FunctionalExtensionality.functional_extensionality. by [].
Qed.
Definition R_choiceMixin : choiceMixin RR :=
  @Choice.Mixin RR R_find R_find_correct R_find_complete R_find_ext.
Canonical R_choiceType := Eval hnf in ChoiceType RR R_choiceMixin.

Lemma R_addA : associative Rplus. Proof. by move=> *; rewrite Rplus_assoc. Qed.
Lemma R_add0 : left_id R0 Rplus. Proof. by move=> *; rewrite Rplus_0_l. Qed.
Lemma R_addN : left_inverse R0 Ropp Rplus. Proof. by move=> *; rewrite Rplus_opp_l. Qed.
Definition R_zmodMixin := ZmodMixin R_addA Rplus_comm R_add0 R_addN.
Canonical R_zmodType := Eval hnf in ZmodType RR R_zmodMixin.

Lemma R_mulA : associative Rmult. Proof. by move=> *; rewrite Rmult_assoc. Qed.
Lemma R_mul1 : left_id R1 Rmult. Proof. by move=> *; rewrite Rmult_1_l. Qed.
Lemma R_mulDl : left_distributive Rmult Rplus. Proof. by move=> *; rewrite Rmult_plus_distr_r. Qed.
Lemma R_1neq0 : R1 != R0. Proof. by apply/eqP; exact: R1_neq_R0. Qed.
Definition R_ringMixin := ComRingMixin R_mulA Rmult_comm R_mul1 R_mulDl R_1neq0.
Canonical R_ringType := Eval hnf in RingType RR R_ringMixin.
Canonical R_comRingType := Eval hnf in ComRingType RR Rmult_comm.

Definition Rinvx (x : RR) : RR := if x != R0 then Rinv x else R0.
Lemma R_mulV : GRing.Field.axiom Rinvx.
Proof. by move=> x h; rewrite /Rinvx h; apply: Rinv_l; apply/eqP. Qed.
Lemma R_inv0 : Rinvx R0 = R0. Proof. by rewrite /Rinvx eqxx. Qed.
Definition R_unitRingMixin := FieldUnitMixin R_mulV R_inv0.
Canonical R_unitRingType := Eval hnf in UnitRingType RR R_unitRingMixin.
Canonical R_comUnitRingType := Eval hnf in [comUnitRingType of RR].
Definition R_fieldMixin := FieldMixin R_mulV R_inv0.
Canonical R_idomainType := Eval hnf in IdomainType RR (FieldIdomainMixin R_fieldMixin).
Canonical R_fieldType := Eval hnf in FieldType RR R_fieldMixin.

