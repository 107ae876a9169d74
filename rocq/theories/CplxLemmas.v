(** Field structure of the complex numbers of Cplx.v. *)
From Coq Require Import Reals Lra Psatz Field.
From Verif Require Import Cplx.
Open Scope R_scope.

Lemma Ceq (a b : C) : Re a = Re b -> Im a = Im b -> a = b.
Proof. destruct a, b; simpl; intros; subst; auto. Qed.

Lemma Cnorm2_nonneg a : 0 <= Cnorm2 a.
Proof. unfold Cnorm2. nra. Qed.
Lemma Cnorm2_zero a : Cnorm2 a = 0 <-> a = C0.
Proof.
  unfold Cnorm2, C0. destruct a as [x y]; simpl. split; intros H.
  - assert (x = 0) by nra. assert (y = 0) by nra. subst; auto.
  - inversion H; subst; lra.
Qed.
Lemma Cnorm2_pos a : a <> C0 -> 0 < Cnorm2 a.
Proof.
  intros. destruct (Cnorm2_nonneg a); auto. exfalso. apply H. apply Cnorm2_zero. auto.
Qed.
Lemma Cnorm2_mul a b : Cnorm2 (a * b)%C = Cnorm2 a * Cnorm2 b.
Proof. unfold Cnorm2, Cmul; simpl. ring. Qed.
Lemma Cabs_nonneg a : 0 <= Cabs a.
Proof. apply sqrt_pos. Qed.
Lemma Cabs_zero a : Cabs a = 0 <-> a = C0.
Proof.
  unfold Cabs. split; intros H.
  - apply sqrt_eq_0 in H; [apply Cnorm2_zero; auto|apply Cnorm2_nonneg].
  - apply Cnorm2_zero in H. rewrite H. apply sqrt_0.
Qed.
Lemma Cabs_mul a b : Cabs (a * b)%C = Cabs a * Cabs b.
Proof. unfold Cabs. rewrite Cnorm2_mul. apply sqrt_mult; apply Cnorm2_nonneg. Qed.
Lemma Cabs_sq a : Cabs a * Cabs a = Cnorm2 a.
Proof. unfold Cabs. apply sqrt_sqrt. apply Cnorm2_nonneg. Qed.

Lemma C_ring : ring_theory C0 C1 Cadd Cmul Csub Copp eq.
Proof.
  constructor; intros; apply Ceq; unfold C0, C1, Cadd, Cmul, Csub, Copp; simpl; ring.
Qed.

Lemma C_field : field_theory C0 C1 Cadd Cmul Csub Copp Cdiv Cinv eq.
Proof.
  constructor.
  - apply C_ring.
  - intros H. inversion H. lra.
  - reflexivity.
  - intros p Hp. pose proof (Cnorm2_pos p Hp) as Q.
    assert (Cnorm2 p <> 0) by lra.
    apply Ceq; unfold Cmul, Cinv, C1; simpl; unfold Cnorm2 in *; field; auto.
Qed.
Add Field C_field_inst : C_field.

Lemma C1_neq_C0 : C1 <> C0.
Proof. intros H; inversion H; lra. Qed.

Lemma Cmul_neq_0 a b : a <> C0 -> b <> C0 -> (a * b)%C <> C0.
Proof.
  intros Ha Hb H. apply Cnorm2_zero in H. rewrite Cnorm2_mul in H.
  pose proof (Cnorm2_pos a Ha). pose proof (Cnorm2_pos b Hb). nra.
Qed.

Lemma Csub_eq0 a b : (a - b)%C = C0 <-> a = b.
Proof.
  split; intros H.
  - replace a with ((a - b) + b)%C by ring. rewrite H. ring.
  - subst. ring.
Qed.

Lemma Cconj_mul a b : Cconj (a * b)%C = (Cconj a * Cconj b)%C.
Proof. apply Ceq; unfold Cconj, Cmul; simpl; ring. Qed.
Lemma Cconj_add a b : Cconj (a + b)%C = (Cconj a + Cconj b)%C.
Proof. apply Ceq; unfold Cconj, Cadd; simpl; ring. Qed.
Lemma Cconj_sub a b : Cconj (a - b)%C = (Cconj a - Cconj b)%C.
Proof. apply Ceq; unfold Cconj, Csub; simpl; ring. Qed.
Lemma Cconj_conj a : Cconj (Cconj a) = a.
Proof. apply Ceq; unfold Cconj; simpl; ring. Qed.
Lemma Cconj_RtoC x : Cconj (RtoC x) = RtoC x.
Proof. apply Ceq; unfold Cconj, RtoC; simpl; ring. Qed.
Lemma Cmul_conj a : (a * Cconj a)%C = RtoC (Cnorm2 a).
Proof. apply Ceq; unfold Cconj, RtoC, Cmul, Cnorm2; simpl; ring. Qed.
Lemma RtoC_mul x y : RtoC (x * y) = (RtoC x * RtoC y)%C.
Proof. apply Ceq; unfold RtoC, Cmul; simpl; ring. Qed.
Lemma RtoC_add x y : RtoC (x + y) = (RtoC x + RtoC y)%C.
Proof. apply Ceq; unfold RtoC, Cadd; simpl; ring. Qed.
Lemma Cscal_RtoC r a : Cscal r a = (RtoC r * a)%C.
Proof. apply Ceq; unfold RtoC, Cmul, Cscal; simpl; ring. Qed.

Lemma Cis_add s t : Cis (s + t) = (Cis s * Cis t)%C.
Proof. apply Ceq; unfold Cis, Cmul; simpl; [apply cos_plus|rewrite sin_plus; ring]. Qed.
Lemma Cis_0 : Cis 0 = C1.
Proof. unfold Cis. rewrite cos_0, sin_0. auto. Qed.
Lemma Cis_norm t : Cnorm2 (Cis t) = 1.
Proof. unfold Cnorm2, Cis; simpl. pose proof (sin2_cos2 t) as H. unfold Rsqr in H. lra. Qed.
Lemma Cis_conj t : Cconj (Cis t) = Cis (- t).
Proof. apply Ceq; unfold Cis, Cconj; simpl; [rewrite cos_neg|rewrite sin_neg]; auto. Qed.
Lemma Cexp_add a b : Cexp (a + b)%C = (Cexp a * Cexp b)%C.
Proof.
  unfold Cexp, Cadd. simpl. rewrite exp_plus, Cis_add, !Cscal_RtoC, RtoC_mul. ring.
Qed.
Lemma Cexp_0 : Cexp C0 = C1.
Proof. unfold Cexp, C0; simpl. rewrite exp_0, Cis_0. apply Ceq; unfold Cscal, C1; simpl; ring. Qed.
Lemma Cexp_neq_0 a : Cexp a <> C0.
Proof.
  intros H. apply Cnorm2_zero in H. unfold Cexp in H. rewrite Cscal_RtoC, Cnorm2_mul, Cis_norm in H.
  unfold Cnorm2, RtoC in H; simpl in H. pose proof (exp_pos (Re a)). nra.
Qed.
Lemma Cexp_norm2 a : Cnorm2 (Cexp a) = exp (Re a) * exp (Re a).
Proof. unfold Cexp. rewrite Cscal_RtoC, Cnorm2_mul, Cis_norm. unfold Cnorm2, RtoC; simpl. ring. Qed.
