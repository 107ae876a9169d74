(** The complex numbers of Cplx.v as a mathcomp field, so that mathcomp matrices
    can be used over them.  The choice structure mathcomp asks for comes from
    Coq.Logic.ClassicalEpsilon. *)
From Coq Require Import Reals Lra Psatz ClassicalEpsilon.
From mathcomp Require Import all_ssreflect all_algebra.
From Verif Require Import Cplx CplxLemmas.
Import GRing.Theory.

Definition C_eqb (a b : C) : bool :=
  if Req_EM_T (Re a) (Re b) then (if Req_EM_T (Im a) (Im b) then true else false) else false.

Lemma C_eqP : Equality.axiom C_eqb.
Proof.
  move=> a b; rewrite /C_eqb.
  case: Req_EM_T => H1; last by apply: ReflectF => E; apply: H1; rewrite E.
  case: Req_EM_T => H2; last by apply: ReflectF => E; apply: H2; rewrite E.
  by apply: ReflectT; apply: Ceq.
Qed.
Definition C_eqMixin := EqMixin C_eqP.
Canonical C_eqType := Eval hnf in EqType C C_eqMixin.

Definition C_find (P : pred C) (n : nat) : option C :=
  match excluded_middle_informative (exists x, P x) with
  | left h => Some (proj1_sig (constructive_indefinite_description _ h))
  | right _ => None
  end.

Lemma C_findP P n x : C_find P n = Some x -> P x.
Proof.
  rewrite /C_find. case: excluded_middle_informative => // h [<-].
  exact: (proj2_sig (constructive_indefinite_description _ h)).
Qed.

Lemma C_find_ex (P : pred C) : (exists x, P x) -> exists n, C_find P n.
Proof.
  move=> h; exists 0%N; rewrite /C_find. by case: excluded_middle_informative.
Qed.

Lemma C_find_ext (P Q : pred C) : P =1 Q -> C_find P =1 C_find Q.
Proof.
  move=> E n. have -> : P = Q by apply: FunctionalExtensionality.functional_extensionality.
  by [].
Qed.
Definition C_choiceMixin := Choice.Mixin C_findP C_find_ex C_find_ext.
Canonical C_choiceType := Eval hnf in ChoiceType C C_choiceMixin.

Lemma CaddA : associative Cadd. Proof. move=> x y z; ring. Qed.
Lemma CaddC : commutative Cadd. Proof. move=> x y; ring. Qed.
Lemma Cadd0 : left_id C0 Cadd. Proof. move=> x; ring. Qed.
Lemma CaddN : left_inverse C0 Copp Cadd. Proof. move=> x; ring. Qed.
Definition C_zmodMixin := ZmodMixin CaddA CaddC Cadd0 CaddN.
Canonical C_zmodType := Eval hnf in ZmodType C C_zmodMixin.

Lemma CmulA : associative Cmul. Proof. move=> x y z; ring. Qed.
Lemma CmulC : commutative Cmul. Proof. move=> x y; ring. Qed.
Lemma Cmul1 : left_id C1 Cmul. Proof. move=> x; ring. Qed.
Lemma CmulD : left_distributive Cmul Cadd. Proof. move=> x y z; ring. Qed.
Lemma C1_neq0 : C1 != C0. Proof. apply/eqP. exact: C1_neq_C0. Qed.
Definition C_ringMixin := ComRingMixin CmulA CmulC Cmul1 CmulD C1_neq0.
Canonical C_ringType := Eval hnf in RingType C C_ringMixin.
Canonical C_comRingType := Eval hnf in ComRingType C CmulC.

(** mathcomp's total inverse: 0 at 0, which is also what Cinv gives *)
Lemma Cinv_mul x : x != C0 -> Cmul (Cinv x) x = C1.
Proof. by move/eqP=> H; field. Qed.
Lemma Cinv_0 : Cinv C0 = C0.
Proof. apply: Ceq; rewrite /Cinv /C0 /=; rewrite /Rdiv; ring. Qed.
Definition C_fieldUnitMixin := FieldUnitMixin Cinv_mul Cinv_0.
Canonical C_unitRingType := Eval hnf in UnitRingType C C_fieldUnitMixin.
Canonical C_comUnitRingType := Eval hnf in [comUnitRingType of C].
Lemma C_field_axiom : GRing.Field.mixin_of C_unitRingType. Proof. by []. Qed.
Definition C_fieldIdomainMixin := FieldIdomainMixin C_field_axiom.
Canonical C_idomainType := Eval hnf in IdomainType C C_fieldIdomainMixin.
Canonical C_fieldType := Eval hnf in FieldType C C_field_axiom.

(** The mathcomp operations are those of Cplx.v. *)
Lemma C_addE (x y : C) : (x + y)%R = Cadd x y. Proof. by []. Qed.
Lemma C_mulE (x y : C) : (x * y)%R = Cmul x y. Proof. by []. Qed.
Lemma C_oppE (x : C) : (- x)%R = Copp x. Proof. by []. Qed.
Lemma C_invE (x : C) : (x^-1)%R = Cinv x. Proof. by []. Qed.
Lemma C_0E : (0%R : C) = C0. Proof. by []. Qed.
Lemma C_1E : (1%R : C) = C1. Proof. by []. Qed.
