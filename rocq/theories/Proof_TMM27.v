(** Bounds of the powers, transparent media. *)
From Coq Require Import Reals ZArith String List Bool Lia Lra Psatz.
From Verif Require Import Base PyVal Cplx CplxLemmas Model_TMM Model_TMM2 Model_TMM3 Spec_TMM Spec_TMM3.
From Verif Require Import Proof_TMM Proof_TMM2 Proof_TMM4 Proof_TMM5 Proof_TMM6 Proof_TMM16 Proof_TMM22 Proof_TMM23 Proof_TMM24 Proof_TMM25 Proof_TMM26.
Import ListNotations.
Open Scope R_scope.

Lemma step_bounds x f b V W : no_gain x -> 0 < V -> 0 <= W <= V -> V = x_Tf x * f + x_Rb x * W -> b = x_Rf x * f + x_Tb x * W ->
  0 < f /\ 0 <= b /\ b <= f - (V - W).
Proof.
  intros (A & B & CC & E & F & G) HV HW H1 H2. assert (0 < f).
  { assert (0 < x_Tf x * f); [|apply (Rmult_lt_reg_l (x_Tf x)); lra]. assert (x_Rb x * W <= x_Rb x * V) by nra. assert (x_Rb x * V < V) by nra. lra. }
  split; [assumption|]. split; [nra|]. nra.
Qed.

Lemma bounds m X P I t : (2 <= m)%nat -> balanced m X P I -> I (m - 1)%nat = (t, 0) -> 0 < t ->
  (forall k, (S k < m)%nat -> no_gain (X k)) -> (forall k, (0 < k)%nat -> (S k < m)%nat -> 0 < P k <= 1) ->
  (forall j, (j < m)%nat -> let k := (m - 1 - j)%nat in 0 < fst (I k) /\ 0 <= snd (I k) /\ t <= fst (I k) - snd (I k)).
Proof.
  intros Hm Bal L Ht HX HP. induction j as [|j IH]; intros Hj k.
  - unfold k. rewrite Nat.sub_0_r, L. cbn. lra.
  - destruct (IH ltac:(lia)) as (A & B & D). replace (m - 1 - j)%nat with (S k) in * by (unfold k; lia).
    destruct (Bal k) as (b & E1 & E2 & E3); [unfold k; lia|].
    destruct (step_bounds (X k) _ b (fst (I (S k))) (snd (I (S k))) (HX k ltac:(unfold k; lia)) A ltac:(lra) E2 E3) as (Q1 & Q2 & Q3).
    destruct (Nat.eqb_spec k 0) as [Z|Z].
    + rewrite E1. rewrite Z in *. lra.
    + destruct (HP k ltac:(lia) ltac:(unfold k in *; lia)) as (P1 & P2). rewrite E1. assert (0 < fst (I k)) by nra. split; [assumption|]. split; [nra|]. nra.
Qed.

Lemma scale_balanced m X P I a : balanced m X P I -> balanced m X P (fun k => (a * fst (I k), a * snd (I k))).
Proof.
  intros H k Hk. destruct (H k Hk) as (b & E1 & E2 & E3). exists (a * b). cbn [fst snd]. rewrite E1, E2, E3. destruct (Nat.eqb k 0); split; try split; ring.
Qed.

Section Calc.
Variables (arcsin : C -> C) (pol : string) (ns : list C) (ds : list pyfloat) (cs : list string) (th0 : C) (lam : R) (D : inc_data).
Hypothesis H : inc_tmm arcsin pol ns ds cs th0 lam = Ok D.
Notation M := (incoherent_layers D).

Lemma T_nonzero : i_T D <> 0.
Proof.
  destruct (inc_calc _ _ _ _ _ _ _ _ H) as (ths & K). destruct (q_VW _ _ _ _ _ _ _ _ _ K) as (Ls & _ & _ & _ & N & -> & _).
  unfold Rdiv. rewrite Rmult_1_l. apply Rinv_neq_0_compat. exact N.
Qed.

Lemma inc_bounds : (forall k, (S k < M)%nat -> no_gain (crossing_of D k)) -> (forall k, (0 < k)%nat -> (S k < M)%nat -> 0 < pass_of D k <= 1) ->
  0 <= i_R D /\ 0 < i_T D /\ i_R D + i_T D <= 1 /\ forall k, (k < M)%nat -> 0 < fst (intensity D k) /\ 0 <= snd (intensity D k) <= fst (intensity D k).
Proof.
  intros HX HP. destruct (balance_all _ _ _ _ _ _ _ _ H) as (H2 & Bal & E0 & E1).
  assert (P0 : 0 < i_T D).
  { destruct (Rtotal_order (i_T D) 0) as [N|[N|N]]; [|destruct (T_nonzero N)|exact N]. exfalso.
    pose proof (bounds M _ _ _ (-1 * i_T D) H2 (scale_balanced _ _ _ _ (-1) Bal)) as Q. cbv beta in Q. rewrite E1 in Q. cbn [fst snd] in Q.
    assert (Z : ((-1 * i_T D), -1 * 0) = (-1 * i_T D, 0)) by (f_equal; ring). specialize (Q Z ltac:(lra) HX HP (M - 1)%nat ltac:(lia)). cbn zeta in Q.
    replace (M - 1 - (M - 1))%nat with 0%nat in Q by lia. rewrite E0 in Q. cbn in Q. lra. }
  pose proof (bounds M _ _ _ (i_T D) H2 Bal E1 P0 HX HP) as Q.
  assert (Q' : forall k, (k < M)%nat -> 0 < fst (intensity D k) /\ 0 <= snd (intensity D k) /\ i_T D <= fst (intensity D k) - snd (intensity D k)).
  { intros k Hk. specialize (Q (M - 1 - k)%nat ltac:(lia)). cbn zeta in Q. replace (M - 1 - (M - 1 - k))%nat with k in Q by lia. exact Q. }
  destruct (Q' 0%nat ltac:(lia)) as (A & B & CC). rewrite E0 in A, B, CC. cbn [fst snd] in *. split; [exact B|]. split; [exact P0|]. split; [lra|].
  intros k Hk. destruct (Q' k Hk) as (F & G & J). lra.
Qed.

Lemma inc_conserved : (forall k, (S k < M)%nat -> x_Rf (crossing_of D k) + x_Tf (crossing_of D k) = 1 /\ x_Rb (crossing_of D k) + x_Tb (crossing_of D k) = 1) ->
  (forall k, (0 < k)%nat -> (S k < M)%nat -> pass_of D k = 1) -> i_R D + i_T D = 1.
Proof.
  intros HX HP. destruct (balance_all _ _ _ _ _ _ _ _ H) as (H2 & Bal & E0 & E1).
  assert (Q : forall j, (j < M)%nat -> let k := (M - 1 - j)%nat in fst (intensity D k) - snd (intensity D k) = i_T D).
  { induction j as [|j IH]; intros Hj k; [unfold k; rewrite Nat.sub_0_r, E1; cbn; lra|].
    specialize (IH ltac:(lia)). cbn zeta in IH. replace (M - 1 - j)%nat with (S k) in IH by (unfold k; lia).
    destruct (Bal k) as (b & F1 & F2 & F3); [unfold k; lia|]. destruct (HX k ltac:(unfold k; lia)) as (G1 & G2).
    rewrite <- IH, F1, F2. destruct (Nat.eqb_spec k 0) as [Z|Z].
    - rewrite F3. rewrite Z in *. nra.
    - rewrite (HP k) in * by (unfold k in *; lia). rewrite F3. nra. }
  specialize (Q (M - 1)%nat ltac:(lia)). cbn zeta in Q. replace (M - 1 - (M - 1))%nat with 0%nat in Q by lia. rewrite E0 in Q. cbn in Q. lra.
Qed.
End Calc.

(** ** Transparent media *)
Lemma transparent_admits s n : transparent s n -> admits s n.
Proof. intros (A & B). pose proof (Rabs_pos s). repeat split; try lra; auto. Qed.
Lemma transparent_cos s n th : transparent s n -> (n * Csin th)%C = RtoC s -> Im (Ccos th) = 0 /\ Re (Ccos th) <> 0.
Proof.
  intros (A & B) E. pose proof (Csin2_cos2 th) as Q. set (c := Ccos th) in *. set (y := Csin th) in *. clearbody c y. pose proof (Rabs_pos s) as P0.
  assert (Q1 : Re n * Re n * (1 - Re y * Re y) = Re n * Re n - s * s /\ Im y = 0).
  { destruct n as [a b], y as [u v]. cbn in *. apply (f_equal Re) in E as E1. apply (f_equal Im) in E as E2. cbn in E1, E2. subst b. split; [nra|]. assert (a * v = 0) by lra. apply Rmult_integral in H as [H|H]; lra. }
  destruct Q1 as (Q1 & Q2). apply (f_equal Re) in Q as R1. apply (f_equal Im) in Q as R2. destruct y as [u v], c as [p q]. cbn in *. subst v.
  assert (PP : 0 < p * p - q * q).
  { assert (s * s < Re n * Re n) by (rewrite <- (Rabs_mult_self s) || idtac; assert (s * s = Rabs s * Rabs s) by (unfold Rabs; destruct Rcase_abs; ring); nra). nra. }
  assert (p * q = 0) by lra. apply Rmult_integral in H as [->| ->]; [nra|]. split; [reflexivity|]. nra.
Qed.
Lemma transparent_guess arcsin s n : inverts_sine arcsin -> principal arcsin -> transparent s n -> Im (Ccos (arcsin (RtoC s / n)%C)) = 0 /\ 0 < Re (Ccos (arcsin (RtoC s / n)%C)).
Proof.
  intros inv pri T. pose proof (admits_neq _ _ (transparent_admits _ _ T)) as Hn. destruct (transparent_cos s n (arcsin (RtoC s / n)%C) T) as (A & _); [rewrite inv; field; exact Hn|]. split; [exact A|].
  apply pri. right. destruct T as (B & T). destruct n as [a b]. cbn in *. subst b. apply Rabs_def2 in T. unfold Cdiv, Cinv, Cnorm2. cbn.
  assert (0 < a) by lra. replace (s * (a / (a * a + 0 * 0)) - 0 * (- 0 / (a * a + 0 * 0))) with (s / a) by (field; lra).
  split; apply (Rmult_lt_reg_r a); auto; unfold Rdiv; rewrite Rmult_assoc, Rinv_l; lra.
Qed.
Lemma forwards_real n c : Im n = 0 -> 0 < Re n -> Im c = 0 -> forwards (n * c)%C = true <-> 0 < Re c.
Proof.
  intros A B E. unfold forwards. destruct n as [a b], c as [p q]. cbn in *. subst b q. replace (a * 0 + 0 * p) with 0 by ring. rewrite Rabs_R0.
  destruct (Rltb (100 * EPSILON) 0) eqn:W; [apply Rltb_true in W; unfold EPSILON in W; exfalso; assert (0 < / 10 ^ 16) by (apply Rinv_0_lt_compat, pow_lt; lra); nra|].
  rewrite Rltb_true. split; intros Q; nra.
Qed.

Lemma crossing_real pol n c n' c' : (pol = "s" \/ pol = "p")%string -> Im n = 0 -> Im n' = 0 -> Im c = 0 -> Im c' = 0 -> 0 < Re n -> 0 < Re n' -> 0 < Re c -> 0 < Re c' ->
  let x := interface_crossing pol n c n' c' in no_gain x /\ x_Rf x + x_Tf x = 1 /\ x_Rb x + x_Tb x = 1.
Proof.
  intros Hp A A' B B' N N' P P'. destruct n as [n nn], n' as [m mm], c as [u uu], c' as [v vv]. cbn in A, A', B, B', N, N', P, P'. subst nn mm uu vv.
  assert (K : forall n m u v, 0 < n -> 0 < m -> 0 < u -> 0 < v ->
     let r := fresnel_r pol (n, 0) (m, 0) (u, 0) (v, 0) in let tt := power pol (m, 0) (v, 0) (fresnel_t pol (n, 0) (m, 0) (u, 0) (v, 0), C0) / power pol (n, 0) (u, 0) (C1, C0) in
     0 <= Cnorm2 r /\ 0 < tt /\ Cnorm2 r + tt = 1).
  { clear. intros n m u v Hn Hm Hu Hv. split; [apply Cnorm2_ge0|]. rewrite power_forward, !power_closed. unfold weight, fresnel_r, fresnel_t. cbn [fst snd].
    assert (0 < n * u) by nra. assert (0 < m * v) by nra. assert (0 < m * u) by nra. assert (0 < n * v) by nra.
    destruct (String.eqb pol "s"); unfold Cnorm2, Cdiv, Cinv, Cconj, RtoC, Cnorm2; cbn.
    - match goal with |- _ < ?t /\ _ => replace t with (4 * (n * u) * (m * v) / ((n * u + m * v) * (n * u + m * v))) by (field; repeat split; nra) end.
      split; [apply Rdiv_lt_0_compat; nra|]. field; repeat split; nra.
    - match goal with |- _ < ?t /\ _ => replace t with (4 * (n * u) * (m * v) / ((m * u + n * v) * (m * u + n * v))) by (field; repeat split; nra) end.
      split; [apply Rdiv_lt_0_compat; nra|]. field; repeat split; nra. }
  destruct (K n m u v N N' P P') as (K1 & K2 & K3). destruct (K m n v u N' N P' P) as (L1 & L2 & L3). cbn zeta in *. unfold no_gain, interface_crossing. cbn [x_Rf x_Tf x_Rb x_Tb]. repeat split; lra.
Qed.
