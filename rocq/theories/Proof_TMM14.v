From Coq Require Import Reals ZArith String List Bool Lra Lia Psatz ClassicalEpsilon.
From Verif Require Import Base PyVal Cplx CplxLemmas Model_TMM Spec_TMM Proof_TMM Proof_TMM2 Proof_TMM3 Proof_TMM4 Proof_TMM5 Proof_TMM6 Proof_TMM7 Proof_TMM8 Proof_TMM9 Proof_TMM10 Proof_TMM11 Proof_TMM12 Proof_TMM13.
Import ListNotations.
Open Scope R_scope.

(** * A film on glass, at 30 degrees *)
Definition film (b : R) : list C := [(1, 0); (2, b); (3/2, 0)].
Definition film_d (d : R) : list pyfloat := [PInf; Fin d; PInf].
Definition deg30 : C := (PI / 6, 0).
Lemma sin30 : Csin deg30 = (1/2, 0).
Proof. unfold Csin, deg30; simpl. rewrite sin_PI6, sinh_0, cosh_0. apply Ceq; simpl; field. Qed.
Lemma cos30 : Ccos deg30 = (sqrt 3 / 2, 0).
Proof. unfold Ccos, deg30; simpl. rewrite cos_PI6, sinh_0, cosh_0. apply Ceq; simpl; field. Qed.
Lemma film_s b : (nth 0 (film b) C0 * Csin deg30)%C = RtoC (1/2).
Proof. rewrite sin30. apply Ceq; simpl; field. Qed.
Lemma film_admits b i : 0 <= b -> (i < 3)%nat -> admits (1/2) (nth i (film b) C0).
Proof.
  intros Hb Hi. unfold admits, film. assert (H : Rabs (1/2) = 1/2) by (apply Rabs_right; lra). rewrite H.
  destruct i as [|[|[|i]]]; [| | |lia]; simpl; repeat split; try lra; right; lra.
Qed.
Lemma film_q arcsin b : inverts_sine arcsin -> principal arcsin -> 0 <= b <= 1/10 ->
  let q := ((2, b) * Ccos (arcsin (RtoC (1/2) / (2, b))))%C in 0 <= Im q <= 1 /\ (b = 0 -> Im q = 0).
Proof.
  intros inv pri Hb q. assert (A : admits (1/2) (2, b)) by (apply (film_admits b 1); [lra|lia]).
  assert (NZ := admits_neq _ _ A).
  pose proof (Csin2_cos2 (arcsin (RtoC (1/2) / (2, b))%C)) as Q. rewrite inv in Q.
  assert (E : (q * q)%C = ((2, b) * (2, b) - RtoC (1/4))%C).
  { unfold q. set (c := Ccos _) in *. clearbody c.
    transitivity ((2, b) * (2, b) * (RtoC (1/2) / (2, b) * (RtoC (1/2) / (2, b)) + c * c) - RtoC (1/2) * RtoC (1/2))%C; [field; exact NZ|].
    rewrite Q. apply Ceq; simpl; field. }
  assert (P : 0 < Re (Ccos (arcsin (RtoC (1/2) / (2, b))%C))).
  { apply pri. destruct (Cdiv_im (1/2) (2, b) NZ) as (E1 & E2). rewrite E1, E2. unfold Cnorm2; simpl.
    destruct (Req_EM_T b 0) as [-> | Hb0]; [right; split; lra|]. left.
    intros Z. assert (0 < 2 * 2 + b * b) by nra. apply (Rmult_eq_compat_r (2 * 2 + b * b)) in Z. unfold Rdiv in Z.
    rewrite Rmult_assoc, Rinv_l in Z by lra. lra. }
  assert (Q2 : (2 * 2 + b * b) * Re (Ccos (arcsin (RtoC (1/2) / (2, b))%C)) = 2 * Re q + b * Im q).
  { unfold q. set (c := Ccos _). destruct c. simpl. ring. }
  clearbody q. destruct q as [x y]. assert (E1 := f_equal Re E). assert (E2 := f_equal Im E). simpl in *.
  assert (0 < 2 * x + b * y) by nra. assert (x * y = 2 * b) by lra. assert (x * x = y * y + 15/4 - b * b) by lra.
  assert (0 < x) by nra. assert (0 <= y) by nra. split; [split; [lra|nra]|]. intros ->. nra.
Qed.
Lemma film_layers arcsin b d : inverts_sine arcsin -> principal arcsin -> 0 <= b <= 1/10 -> 0 <= d <= 1 ->
  forall i, (0 < i)%nat -> (S i < length (film b))%nat -> exists d', nth i (film_d d) NaN = Fin d' /\ 0 <= d' /\
   Im (nth i (film b) C0 * Ccos (arcsin (RtoC (1/2) / nth i (film b) C0)))%C * (2 * PI / 1) * d' <= 35.
Proof.
  intros inv pri Hb Hd i H1 H2. simpl in H2. replace i with 1%nat by lia. exists d. split; [reflexivity|]. split; [lra|].
  change (nth 1 (film b) C0) with ((2, b) : C). destruct (film_q arcsin b inv pri Hb) as ((Q1 & Q2) & _). set (q := (_ * _)%C) in *. clearbody q.
  assert (PI <= 4) by apply PI_4. pose proof PI_RGT_0.
  assert (Im q * (2 * PI / 1) <= 8) by (unfold Rdiv; nra). assert (0 <= Im q * (2 * PI / 1)) by (unfold Rdiv; nra). nra.
Qed.
Lemma film_ok arcsin pol b d : inverts_sine arcsin -> principal arcsin -> pol = "s"%string \/ pol = "p"%string -> 0 <= b <= 1/10 -> 0 <= d <= 1 ->
  exists D, coh_tmm arcsin pol (film b) (film_d d) deg30 1 = Ok D /\ no_opaque_layer D /\
    (b = 0 -> Im (nth 1 (c_kz D) C0) = 0) /\ 0 <= Im (nth 1 (c_kz D) C0) /\ Im (cosine_of D 2) = 0.
Proof.
  intros inv pri Hp Hb Hd.
  destruct (coh_tmm_succeeds arcsin inv pri pol (film b) (film_d d) deg30 1 (1/2)) as (D & E & T); auto; try (simpl; lia); try lra.
  - exact (film_layers arcsin b d inv pri Hb Hd).
  - apply film_s.
  - rewrite cos30. simpl. assert (0 < sqrt 3) by (apply sqrt_lt_R0; lra). lra.
  - intros i Hi. apply film_admits; [lra|exact Hi].
  - exists D. split; [exact E|]. assert (K := coh_tmm_calc arcsin _ _ _ _ _ _ E).
    assert (KZ : nth 1 (c_kz D) C0 = (RtoC (2 * PI / 1) * ((2, b) * Ccos (arcsin (RtoC (1/2) / (2, b)))))%C).
    { rewrite (kz_is arcsin _ _ _ _ _ _ K) by (simpl; lia). cbv beta. rewrite T. reflexivity. }
    destruct (film_q arcsin b inv pri Hb) as ((Q1 & Q2) & Q3). cbv zeta in Q1, Q2, Q3.
    set (q := ((2, b) * Ccos (arcsin (RtoC (1/2) / (2, b))))%C) in *. assert (PI <= 4) by apply PI_4. pose proof PI_RGT_0.
    assert (KI : Im (nth 1 (c_kz D) C0) = 2 * PI * Im q) by (rewrite KZ; clearbody q; destruct q; simpl; field).
    split; [|split; [|split]].
    + intros i H1 H2. destruct (k_in _ _ _ _ _ _ _ K) as (_ & E1 & E2 & _). rewrite E1 in H2. simpl in H2. replace i with 1%nat by lia. rewrite E2.
      change (thickness (nth 1 (film_d d) NaN)) with d. replace (Im (nth 1 (c_kz D) C0 * RtoC d)%C) with (Im (nth 1 (c_kz D) C0) * d) by (destruct (nth 1 (c_kz D) C0); simpl; ring).
      rewrite KI. assert (2 * PI * Im q <= 8) by nra. assert (0 <= 2 * PI * Im q) by nra. nra.
    + intros Z. rewrite KI, (Q3 Z). ring.
    + rewrite KI. nra.
    + unfold cosine_of. rewrite T. change (nth 2 (map (fun x => arcsin (RtoC (1 / 2) / x)%C) (film b)) C0) with (arcsin (RtoC (1 / 2) / ((3/2)%R, 0))%C).
      assert (Z : (RtoC (1/2) / ((3/2)%R, 0))%C = RtoC (1/3)) 
        by (destruct (Cdiv_im (1/2) ((3/2)%R, 0) ltac:(intros Z; injection Z; lra)) as (E1 & E2); apply Ceq; [rewrite E2|rewrite E1]; unfold Cnorm2; simpl; field).
      rewrite Z. pose proof (Csin2_cos2 (arcsin (RtoC (1/3)))) as Q. rewrite inv in Q.
      assert (P : 0 < Re (Ccos (arcsin (RtoC (1/3))))) by (apply pri; right; simpl; lra).
      set (c := Ccos _) in *. clearbody c. destruct c as [u v]. assert (Q5 := f_equal Im Q). simpl in *. nra.
Qed.
Lemma film_reverse arcsin pol b d : inverts_sine arcsin -> principal arcsin -> pol = "s"%string \/ pol = "p"%string -> 0 <= b <= 1/10 -> 0 <= d <= 1 ->
  exists D', coh_tmm_reverse arcsin pol (film b) (film_d d) deg30 1 = Ok D'.
Proof.
  intros inv pri Hp Hb Hd.
  apply (reverse_succeeds arcsin inv pri pol (film b) (film_d d) deg30 1 (1/2)); auto; try (simpl; lia); try lra.
  - exact (film_layers arcsin b d inv pri Hb Hd).
  - apply film_s.
  - intros i Hi. apply film_admits; [lra|exact Hi].
Qed.

(** * Total internal reflection: what numpy's arcsin does beyond the cut *)
Lemma arcsin_cut : exists f, inverts_sine f /\ principal f /\ forall x, 1 < x -> Re (Ccos (f (RtoC x))) = 0 /\ Im (Ccos (f (RtoC x))) = - sqrt (x * x - 1).
Proof.
  destruct arcsin_exists as (f & inv & pri).
  set (g := fun z => if excluded_middle_informative (Im z = 0 /\ 1 < Re z /\ 0 < Im (Ccos (f z))) then (RtoC PI - f z)%C else f z).
  exists g. split; [|split].
  - intros z. unfold g. destruct excluded_middle_informative; [rewrite Csin_pi_minus|]; apply inv.
  - intros z Hz. unfold g. destruct excluded_middle_informative as [(H1 & H2 & _)|_]; [|apply pri; exact Hz].
    destruct Hz as [Hz | Hz]; [contradiction|lra].
  - intros x Hx. pose proof (Csin2_cos2 (f (RtoC x))) as Q. rewrite inv in Q.
    assert (B : Re (Ccos (g (RtoC x))) = 0 /\ Im (Ccos (g (RtoC x))) <= 0 /\ Im (Ccos (g (RtoC x))) * Im (Ccos (g (RtoC x))) = x * x - 1).
    { unfold g. destruct excluded_middle_informative as [(H1 & H2 & H3)|H].
      - rewrite Ccos_pi_minus. set (c := Ccos (f (RtoC x))) in *. clearbody c. destruct c as [u v]. assert (Q1 := f_equal Re Q). assert (Q2 := f_equal Im Q). simpl in *.
        assert (u = 0) by nra. subst. nra.
      - assert (~ 0 < Im (Ccos (f (RtoC x)))) by (intros H'; apply H; simpl; auto).
        set (c := Ccos (f (RtoC x))) in *. clearbody c. destruct c as [u v]. assert (Q1 := f_equal Re Q). assert (Q2 := f_equal Im Q). simpl in *.
        assert (UV : u * v = 0) by lra. assert (v <> 0) by (intros ->; nra). apply Rmult_integral in UV as [-> | UV]; [|contradiction]. nra. }
    destruct B as (B1 & B2 & B3). split; [exact B1|]. set (v := Im (Ccos (g (RtoC x)))) in *. clearbody v.
    replace (x * x - 1) with (Rsqr (- v)) by (unfold Rsqr; lra). rewrite sqrt_Rsqr by lra. ring.
Qed.
Lemma backward_im q : Im q < - (100 * EPSILON) -> forwards q = false.
Proof.
  intros H. unfold forwards. pose proof EPSILON_pos.
  assert (E : Rltb (100 * EPSILON) (Rabs (Im q)) = true) by (apply Rltb_true; rewrite Rabs_left by lra; lra).
  rewrite E. apply Rltb_false. lra.
Qed.
Lemma doubled_last arcsin pol ns n_last ds th0 lam : inverts_sine arcsin -> ns <> [] ->
  Im (n_last * Ccos (arcsin (nth 0 ns C0 * Csin th0 / n_last)))%C < - (100 * EPSILON) ->
  exists e, coh_tmm arcsin pol (ns ++ [n_last; n_last]) ds th0 lam = Err e.
Proof.
  intros inv HN H. apply tir_doubled; auto; [destruct ns; [contradiction|simpl; lia]|apply backward_im; exact H].
Qed.
