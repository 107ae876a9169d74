From Coq Require Import Reals ZArith String List Bool Lra Lia Psatz.
From Verif Require Import Base PyVal Cplx CplxLemmas Model_TMM Spec_TMM Proof_TMM Proof_TMM2 Proof_TMM3 Proof_TMM4 Proof_TMM5 Proof_TMM6 Proof_TMM7 Proof_TMM8 Proof_TMM9 Proof_TMM10 Proof_TMM11 Proof_TMM12 Proof_TMM13 Proof_TMM14.
Import ListNotations.
Open Scope R_scope.

(** * Total reflection can be computed, with the last medium once *)
Definition prism : list C := [(4, 0); (1, 0)].
Lemma Cre_neq z : Re z <> 0 -> z <> C0.
Proof. intros H E. apply H. rewrite E. reflexivity. Qed.
Lemma prism_ok arcsin : inverts_sine arcsin -> principal arcsin ->
  Re (Ccos (arcsin (RtoC 2))) = 0 -> Im (Ccos (arcsin (RtoC 2))) = - sqrt 3 ->
  exists D, coh_tmm arcsin "s" prism [PInf; PInf] deg30 1 = Ok D.
Proof.
  intros inv pri R2 I2. assert (S3 : 0 < sqrt 3) by (apply sqrt_lt_R0; lra). assert (S33 : sqrt 3 * sqrt 3 = 3) by (apply sqrt_sqrt; lra).
  assert (S31 : 1 < sqrt 3) by nra. pose proof EPSILON_pos. assert (EP : 100 * EPSILON < 1).
  { assert (E : EPSILON <= / 2 ^ 7). { unfold EPSILON. apply Rinv_le_contravar; [lra|]. apply Rle_pow; [lra|lia]. } lra. }
  assert (C2 : Ccos (arcsin (RtoC 2)) = (0, - sqrt 3)) by (apply Ceq; assumption).
  assert (CH : Ccos (arcsin (RtoC (1/2))) = (sqrt 3 / 2, 0)).
  { pose proof (Csin2_cos2 (arcsin (RtoC (1/2)))) as Q. rewrite inv in Q.
    assert (P : 0 < Re (Ccos (arcsin (RtoC (1/2))))) by (apply pri; right; simpl; lra).
    set (c := Ccos (arcsin (RtoC (1/2)))) in *. clearbody c. destruct c as [u v]. assert (Q1 := f_equal Re Q). assert (Q2 := f_equal Im Q). simpl in *.
    assert (UV : u * v = 0) by lra. apply Rmult_integral in UV as [UV | UV]; [lra|]. subst v. apply Ceq; simpl; [|reflexivity]. assert (Z : (u - sqrt 3 / 2) * (u + sqrt 3 / 2) = 0) by nra. apply Rmult_integral in Z as [Z | Z]; lra. }
  assert (F0 : forall th, Ccos th = (sqrt 3 / 2, 0) -> is_forward_angle (4, 0) th = Ok true).
  { intros th E. apply (admits_forward 2 (4, 0) (sqrt 3 / 2, 0)); [| | |symmetry; exact E].
    - unfold admits. simpl. rewrite Rabs_right by lra. split; [lra|]. split; [lra|]. right. lra.
    - apply Ceq; simpl; nra.
    - simpl. lra. }
  assert (F1 : is_forward_angle (1, 0) (arcsin (RtoC 2)) = Ok false).
  { unfold is_forward_angle. rewrite Ccos_conj, C2.
    assert (E1 : Rleb 0 (Re (1, 0) * Im (1, 0)) = true) by (apply Rleb_true; simpl; lra). rewrite E1. cbn [ensure bind].
    set (q := ((1, 0) * (0, (- sqrt 3)%R))%C). assert (Rq : Re q = 0) by (simpl; ring). assert (Iq : Im q = - sqrt 3) by (simpl; ring).
    assert (Ro : Re ((1, 0) * Cconj (0, (- sqrt 3)%R))%C = 0) by (simpl; ring). rewrite Rq, Iq, Ro.
    assert (E2 : Rltb (100 * EPSILON) (Rabs (- sqrt 3)) = true) by (apply Rltb_true; rewrite Rabs_left; lra). rewrite E2.
    assert (E3 : Rltb 0 (- sqrt 3) = false) by (apply Rltb_false; lra). rewrite E3.
    assert (E4 : Rltb (- sqrt 3) (100 * EPSILON) = true) by (apply Rltb_true; lra). rewrite E4.
    assert (E5 : Rltb 0 (100 * EPSILON) = true) by (apply Rltb_true; lra). rewrite E5. reflexivity. }
  assert (SN : list_snell arcsin prism deg30 = Ok [arcsin (RtoC (1/2)); (RtoC PI - arcsin (RtoC 2))%C]).
  { unfold list_snell, prism, angles_of. rewrite sin30.
    assert (N4 : ((4, 0) : C) <> C0) by (apply Cre_neq; simpl; lra). assert (N1 : ((1, 0) : C) <> C0) by (apply Cre_neq; simpl; lra).
    assert (E1 : ((4, 0) * ((1/2)%R, 0))%C = RtoC 2) by (apply Ceq; simpl; field). rewrite E1.
    rewrite !cdiv_ok by assumption. cbn [bind].
    assert (E2 : (RtoC 2 / (4, 0))%C = RtoC (1/2)) by (apply (Cmul_cancel (4, 0)); auto; transitivity (RtoC 2); [field; exact N4|apply Ceq; simpl; field]).
    assert (E3 : (RtoC 2 / (1, 0))%C = RtoC 2) by (apply (Cmul_cancel (1, 0)); auto; transitivity (RtoC 2); [field; exact N1|apply Ceq; simpl; field]).
    rewrite E2, E3. unfold make_forward. cbn [nth]. rewrite (F0 _ CH). cbn [bind length Nat.sub nth]. rewrite F1. reflexivity. }
  unfold coh_tmm. cbn [length prism Nat.eqb ensure bind negb]. fold prism.
  change (nth 0 [PInf; PInf] NaN) with PInf. change (nth (2 - 1) [PInf; PInf] NaN) with PInf. cbn [feq andb ensure bind].
  change (nth 0 prism C0) with ((4, 0) : C). change (nth (2 - 1) prism C0) with ((1, 0) : C).
  assert (G1 : Rltb (Rabs (Im ((4, 0) * Csin deg30)%C)) (100 * EPSILON) = true).
  { rewrite sin30. apply Rltb_true. simpl. replace (4 * 0 + 0 * (1 / 2)) with 0 by ring. rewrite Rabs_R0. lra. }
  rewrite G1. cbn [ensure bind]. rewrite (F0 _ cos30). cbn [ensure bind]. rewrite SN. cbn [bind].
  assert (G2 : Reqb 1 0 = false) by (apply Reqb_false; lra). rewrite G2. cbn [negb ensure bind seq Nat.sub forallb].
  set (c1 := Ccos (RtoC PI - arcsin (RtoC 2))%C). assert (Ec1 : c1 = (0, sqrt 3)) by (unfold c1; rewrite Ccos_pi_minus, C2; apply Ceq; simpl; ring).
  assert (DN : ((4, 0) * ((sqrt 3 / 2)%R, 0) + (1, 0) * (0, sqrt 3))%C <> C0) by (apply Cre_neq; simpl; lra).
  assert (TN : ((RtoC 2 * (4, 0) * ((sqrt 3 / 2)%R, 0)) / ((4, 0) * ((sqrt 3 / 2)%R, 0) + (1, 0) * (0, sqrt 3)))%C <> C0).
  { apply Cdiv_nz; [|exact DN]. apply Cre_neq. simpl. lra. }
  assert (IF : interfaces "s" prism [arcsin (RtoC (1/2)); (RtoC PI - arcsin (RtoC 2))%C] =
    Ok [(((4, 0) * ((sqrt 3 / 2)%R, 0) - (1, 0) * (0, sqrt 3)) / ((4, 0) * ((sqrt 3 / 2)%R, 0) + (1, 0) * (0, sqrt 3)),
         (RtoC 2 * (4, 0) * ((sqrt 3 / 2)%R, 0)) / ((4, 0) * ((sqrt 3 / 2)%R, 0) + (1, 0) * (0, sqrt 3)))%C]).
  { unfold prism, interfaces, interface_t, interface_r. cbn [String.eqb Ascii.eqb Bool.eqb]. fold c1. rewrite CH, Ec1.
    rewrite !cdiv_ok by exact DN. reflexivity. }
  rewrite IF. cbn [bind forallb snd andb].
  set (t := ((RtoC 2 * (4, 0) * ((sqrt 3 / 2)%R, 0)) / _)%C) in *. set (r := (((4, 0) * ((sqrt 3 / 2)%R, 0) - (1, 0) * (0, sqrt 3)) / _)%C).
  assert (G3 : Reqb (Cnorm2 t) 0 = false) by (apply Reqb_false; apply Cnorm2_pos in TN; lra). rewrite G3. cbn [negb andb ensure bind nth].
  match goal with |- context [M_list ?k ?d ?l] => change (M_list k d l) with (@nil m22) end.
  unfold M_total. cbn [fold_left fst snd mscal mdot m_id m00 m10].
  assert (MN : (C1 / t * C1 * C1 + C1 / t * r * C0)%C <> C0).
  { assert (J : C1 <> C0) by (apply Cre_neq; simpl; lra). replace (C1 / t * C1 * C1 + C1 / t * r * C0)%C with (C1 / t)%C by ring. apply Cdiv_nz; auto. }
  rewrite !cdiv_ok by exact MN. cbn [bind].
  assert (NN : Re ((4, 0) * Ccos deg30)%C <> 0) by (rewrite cos30; simpl; lra).
  unfold T_from_t, power_entering_from_r. cbn [String.eqb Ascii.eqb Bool.eqb]. rewrite !rdiv_ok by exact NN. cbn [bind]. eexists; reflexivity.
Qed.
Lemma prism_doubled : exists arcsin, inverts_sine arcsin /\ principal arcsin /\
  (exists D, coh_tmm arcsin "s" prism [PInf; PInf] deg30 1 = Ok D) /\
  forall d, exists e, coh_tmm arcsin "s" (prism ++ [(1, 0)]) [PInf; Fin d; PInf] deg30 1 = Err e.
Proof.
  destruct arcsin_cut as (f & inv & pri & Hc). destruct (Hc 2 ltac:(lra)) as (H1 & H2). replace (2 * 2 - 1) with 3 in H2 by ring.
  exists f. split; [exact inv|]. split; [exact pri|]. split; [apply prism_ok; assumption|].
  intros d. change (prism ++ [(1, 0)])%list with ([(4, 0)] ++ [(1, 0); (1, 0)])%list. apply doubled_last; [exact inv|discriminate|].
  cbn [nth]. rewrite sin30.
  assert (N1 : ((1, 0) : C) <> C0) by (apply Cre_neq; simpl; lra).
  assert (E : ((4, 0) * ((1/2)%R, 0) / (1, 0))%C = RtoC 2) by (apply (Cmul_cancel (1, 0)); auto; transitivity ((4, 0) * ((1/2)%R, 0))%C; [field; exact N1|apply Ceq; simpl; field]).
  rewrite E. assert (EI : Im ((1, 0) * Ccos (f (RtoC 2)))%C = - sqrt 3) by (rewrite <- H2; destruct (Ccos (f (RtoC 2))); simpl; ring).
  rewrite EI. assert (S33 : sqrt 3 * sqrt 3 = 3) by (apply sqrt_sqrt; lra). assert (0 < sqrt 3) by (apply sqrt_lt_R0; lra).
  assert (EP : EPSILON <= / 2 ^ 7). { unfold EPSILON. apply Rinv_le_contravar; [lra|]. apply Rle_pow; [lra|lia]. } nra.
Qed.
