From Coq Require Import Reals ZArith String List Bool Lra Lia Psatz.
From Verif Require Import Base BaseLemmas Cplx CplxLemmas PyVal Spec_Config Model_Units Model_Coeffs Model_FDTD Model_Register Spec_FDTD Spec_Register Model_Layout Spec_Layout
  Proof_Steps Proof_Layout Proof_Spectrum Spec_Harmonic Proof_Harmonic2 Proof_Harmonic3 Proof_Harmonic5.
Import ListNotations.
Open Scope R_scope.
Local Open Scope string_scope.
Local Open Scope R_scope.

Lemma column_at c x n : Rfloor (f_scaling c * x) = Z.of_nat n -> column c x = n.
Proof. intros H. unfold column. rewrite H. apply Nat2Z.id. Qed.
Ltac col := apply column_at, Rfloor_unique; cbn [f_scaling f_pml f_free f_thick stack_cfg Rsum fold_right firstn Z.of_nat Pos.of_succ_nat Pos.succ]; unfold Rsum; cbn [fold_right]; lra.

Lemma stack_facts : proper stack_cfg /\ known_kinds stack_cfg /\ usable_source stack_cfg /\ columns stack_cfg = 70%nat /\ pml_columns stack_cfg = 15%nat
  /\ edge stack_cfg 0 = 25%nat /\ edge stack_cfg 2 = 45%nat /\ Rtrunc (f_src_x stack_cfg * f_scaling stack_cfg) = 15%Z.
Proof.
  assert (C70 : columns stack_cfg = 70%nat) by (unfold columns; col).
  assert (T : Rtrunc (f_src_x stack_cfg * f_scaling stack_cfg) = 15%Z) by (rewrite Rtrunc_nonneg; cbn; [apply Rfloor_unique; lra|lra]).
  split; [|split; [|split; [|split; [exact C70|split; [|split; [|split]]]]]].
  - split; cbn; try lra; try lia. repeat constructor; lra.
  - split; cbn; auto.
  - split; [rewrite C70, T; unfold index_ok; lia|left; reflexivity].
  - unfold pml_columns. col.
  - unfold edge, layer_begin. col.
  - unfold edge, layer_begin. col.
  - exact T.
Qed.

Lemma sub_oscillates w A g n lo hi lo' hi' : (lo <= lo')%nat -> (hi' <= hi)%nat -> oscillates w A g n lo hi -> oscillates w A g n lo' hi'.
Proof. intros L1 L2 O p c G L. destruct (O p c G ltac:(lia)) as [O1 O2]. split; [exact O1|]. intros H. apply O2. lia. Qed.
Lemma sub_columns g eps sig lo hi lo' hi' : (lo <= lo')%nat -> (hi' <= hi)%nat -> free_columns g eps sig lo hi -> free_columns g eps sig lo' hi'.
Proof.
  intros L1 L2 (H1 & H2 & H3 & H4). split; [lia|]. split; [|split].
  - eapply Forall_impl; [|exact H2]. intros b; destruct b; cbn; auto. intros [A B]. split; [exact A|]. destruct (p_high _); lia.
  - eapply Forall_impl; [|exact H3]. intros s (x0 & P & Q). exists x0. split; [exact P|lia].
  - intros p G L. apply H4; [exact G|lia].
Qed.

Definition refilled (g0 : grid) (E H : field) : grid := with_fields g0 E H 0 (g_boundaries g0) (g_detectors g0).

Lemma stack_base : exists g0 eps sig, init_fdtd stack_cfg (Some stack_slice) (1 / 1000000) = Ok g0 /\ 0 < g_courant g0 < 1
  /\ free_columns g0 eps sig 16 54 /\ stands_between eps sig 25 44 /\ (forall x, (25 <= x < 35)%nat -> eps x = 4 /\ sig x = 0) /\ 0 < sig 40%nat
  /\ g_N g0 AY = 3%nat /\ g_N g0 AZ = 1%nat
  /\ forall E H n, exists g', run_steps n (refilled g0 E H) = Ok g'.
Proof.
  destruct stack_facts as (P & KN & US & C70 & P15 & E25 & E45 & T15).
  assert (H1 : 1 <= f_scaling stack_cfg * f_pml stack_cfg) by (cbn; lra). assert (W : 0 < 1 / 1000000) by lra.
  assert (TN : f_thick stack_cfg <> []) by discriminate.
  set (layers := [(4, 0); (2, 1 / 10)]). assert (LN : layers <> []) by discriminate.
  destruct (material_layout stack_cfg stack_slice (1 / 1000000) [layers] layers P H1 KN W TN eq_refl eq_refl LN) as [Ex Ml].
  destruct (proj1 Ex) as [g0 I]; [cbn; lia|]. clear Ex.
  destruct (simulation stack_cfg stack_slice (1 / 1000000) [layers] layers g0 15 P H1 KN W TN eq_refl eq_refl LN) as (eps & sig & F & St & _ & Ly).
  { intros e [<-|[<-|[]]]; cbn; lra. }
  { exact T15. }
  { lia. }
  { exact I. }
  rewrite C70, P15 in F. cbn [length layers] in St. rewrite E25, E45 in St. cbn [Nat.sub] in F, St.
  destruct (init_time_step stack_cfg _ _ g0 P H1 KN W I) as (Co & _). destruct (Ml g0 I) as ((_ & NY & NZ & _ & _ & _ & St0 & _) & _).
  assert (S2 : 0 < sqrt 2) by (apply sqrt_lt_R0; lra). assert (S1 : 1 <= sqrt 2) by (rewrite <- sqrt_1; apply sqrt_le_1; lra).
  assert (E35 : edge stack_cfg 1 = 35%nat) by (unfold edge, layer_begin; col).
  exists g0, eps, sig. split; [exact I|]. split.
  { rewrite Co. split; [apply Rdiv_lt_0_compat; lra|]. apply Rmult_lt_reg_r with (sqrt 2); [lra|]. unfold Rdiv. rewrite Rmult_assoc, Rinv_l by lra. lra. }
  split; [exact F|]. split; [exact St|]. split.
  { intros x Hx. destruct (Ly 0%nat x) as [-> ->]; [cbn; lia|rewrite E25, E35; lia|]. cbn [nth layers fst]. split; [reflexivity|]. unfold conductivity. cbn [snd]. unfold Rdiv. ring. }
  split.
  { destruct (Ly 1%nat 40%nat) as [_ ->]; [cbn; lia|rewrite E35, E45; lia|]. cbn [nth layers fst snd]. unfold conductivity. cbn [snd]. pose proof PI_RGT_0.
    assert (0 < SPEED_OF_LIGHT) by (unfold SPEED_OF_LIGHT; lra). assert (0 < MU_0) by (unfold MU_0; lra).
    assert (0 < EPS_0). { unfold EPS_0. apply Rmult_lt_0_compat; [lra|]. apply Rinv_0_lt_compat, pow_lt. lra. }
    assert (0 < ETA_0) by (unfold ETA_0; apply Rmult_lt_0_compat; lra).
    assert (0 < UNIT_MAGNITUDE / f_scaling stack_cfg) by (unfold UNIT_MAGNITUDE; cbn; lra). assert (0 < 99 / 100 / sqrt 2) by (apply Rdiv_lt_0_compat; lra).
    assert (0 < SPEED_OF_LIGHT / (1 / 1000000)) by (apply Rdiv_lt_0_compat; lra).
    apply Rdiv_lt_0_compat; [|lra]. repeat (apply Rmult_lt_0_compat; try lra). }
  split; [exact NY|]. split; [exact NZ|].
  intros E H n. assert (UM : UNIT_MAGNITUDE <= 1 / 1000000 * f_scaling stack_cfg) by (unfold UNIT_MAGNITUDE; cbn; lra).
  destruct (simulation_runs stack_cfg (Some stack_slice) (1 / 1000000) g0 n P H1 KN US UM) as [g' R0].
  - right. exists stack_slice, [layers], layers. repeat split.
  - exact I.
  - pose proof (proj1 (run_ok n g0)) as Q. rewrite R0 in Q. specialize (Q eq_refl).
    pose proof (proj2 (run_ok n (refilled g0 E H))) as Q'. unfold refilled in Q'. cbn [with_fields g_N g_boundaries g_detectors g_sources g_steps] in Q'. rewrite St0 in Q.
    specialize (Q' Q). fold (refilled g0 E H) in Q'. destruct (run_steps n (refilled g0 E H)) as [g''|]; [eauto|discriminate].
Qed.

Lemma solve_sine y : 0 < y < 1 -> exists w, 0 < w < PI /\ sin (w / 2) = y.
Proof.
  intros Y. pose proof PI_RGT_0. exists (2 * asin y). replace (2 * asin y / 2) with (asin y) by field. split; [|apply sin_asin; lra].
  pose proof (asin_bound_lt y ltac:(lra)) as [_ B2]. split; [|lra]. destruct (Rle_lt_dec (asin y) 0) as [L|L]; [|lra]. exfalso.
  pose proof (asin_bound y) as [B1 _]. assert (sin (asin y) <= 0); [|rewrite sin_asin in *; lra].
  rewrite <- (Ropp_involutive (asin y)), sin_neg. assert (0 <= sin (- asin y)) by (apply sin_ge_0; lra). lra.
Qed.

Lemma stack_case : exists g0 g g' g1 g2 eps sig w A r t,
  init_fdtd stack_cfg (Some stack_slice) (1 / 1000000) = Ok g0
  /\ g = with_fields g0 (E_osc w A 0) (H_osc (g_courant g0) w A 0) 0 (g_boundaries g0) (g_detectors g0)
  /\ free_columns g eps sig 18 52 /\ stands_between eps sig 25 44 /\ eps 25%nat = 4 /\ 0 < sig 40%nat
  /\ 0 < g_courant g /\ (0 < g_N g AY)%nat /\ (0 < g_N g AZ)%nat /\ 0 < w < PI /\ sin (w / 2) = g_courant g * sin (PI / 20 / 2)
  /\ scattered (g_courant g) w (PI / 20) eps sig 25 44 A r t
  /\ oscillates w A g 0 18 52 /\ run_steps 10 g = Ok g'
  /\ step g = Ok g1 /\ step g1 = Ok g2 /\ oscillates w A g1 1 18 52 /\ oscillates w A g2 2 18 52.
Proof.
  destruct stack_base as (g0 & eps & sig & I & [C0' C1'] & F & St & L4 & S40 & NY & NZ & Rn'). pose proof PI_RGT_0 as PP.
  assert (SK : 0 < sin (PI / 20 / 2)) by (apply sin_gt_0; lra). assert (SK1 : sin (PI / 20 / 2) <= 1) by apply SIN_bound.
  destruct (solve_sine (g_courant g0 * sin (PI / 20 / 2))) as (w & Wb & Dw).
  { split; [apply Rmult_lt_0_compat; assumption|]. apply Rle_lt_trans with (g_courant g0 * 1); [apply Rmult_le_compat_l; lra|lra]. }
  destruct (scattered_exists (g_courant g0) w (PI / 20) eps sig 25 44 C0' ltac:(lra) Wb Dw St ltac:(lia)) as (A & r & t & Sc).
  set (g := with_fields g0 (E_osc w A 0) (H_osc (g_courant g0) w A 0) 0 (g_boundaries g0) (g_detectors g0)).
  assert (Rn : forall n, exists g', run_steps n g = Ok g') by (intros n; apply Rn').
  assert (Fg : free_columns g eps sig 16 54) by exact F.
  assert (Og : oscillates w A g 0 16 54) by (intros p c G L; split; reflexivity).
  assert (Hw : sin (w / 2) <> 0) by (rewrite Dw; apply Rgt_not_eq, Rmult_lt_0_compat; assumption).
  destruct (Rn 10%nat) as [g' R10]. destruct (Rn 2%nat) as [g2 R2]. cbn [run_steps] in R2.
  destruct (step g) as [g1|] eqn:E1; [|discriminate]. cbn [bind] in R2. destruct (step g1) as [g2'|] eqn:E2; [|discriminate]. cbn [bind] in R2. injection R2 as ->.
  destruct Sc as (SB & SL & SR).
  assert (Ps : forall x, (16 <= x <= 54)%nat -> 0 < eps x /\ 0 <= sig x) by (intros x _; destruct (St x) as (? & ? & _); auto).
  assert (Bl : forall x, (16 < x < 54)%nat -> balanced (g_courant g) w eps sig A x) by (intros x Hx; apply SB; lia).
  assert (O1 : oscillates w A g1 1 17 53).
  { apply (oscillation eps sig w A g g1 16 54 0 1 Fg Hw C0' Ps Bl Og). cbn [run_steps]. rewrite E1. reflexivity. }
  assert (O2 : oscillates w A g2 2 18 52).
  { apply (oscillation eps sig w A g g2 16 54 0 2 Fg Hw C0' Ps Bl Og). cbn [run_steps]. rewrite E1. cbn [bind]. rewrite E2. reflexivity. }
  exists g0, g, g', g1, g2, eps, sig, w, A, r, t. split; [exact I|]. split; [reflexivity|].
  split; [eapply sub_columns; [| |exact Fg]; lia|]. split; [exact St|].
  split; [apply L4; lia|]. split; [exact S40|].
  split; [exact C0'|]. split; [unfold g; cbn [with_fields g_N]; lia|]. split; [unfold g; cbn [with_fields g_N]; lia|].
  split; [exact Wb|]. split; [exact Dw|]. split; [split; [exact SB|split; [exact SL|exact SR]]|].
  split; [eapply sub_oscillates; [| |exact Og]; lia|]. split; [exact R10|]. split; [exact E1|]. split; [exact E2|].
  split; [eapply sub_oscillates; [| |exact O1]; lia|exact O2].
Qed.

Lemma interface_case : exists g0 g g' w k2,
  init_fdtd stack_cfg (Some stack_slice) (1 / 1000000) = Ok g0
  /\ g = with_fields g0 (E_osc w (at_interface (PI / 20) k2 25) 0) (H_osc (g_courant g0) w (at_interface (PI / 20) k2 25) 0) 0 (g_boundaries g0) (g_detectors g0)
  /\ free_columns g (two_materials 1 4 25) (fun _ => 0) 16 34 /\ 0 < g_courant g
  /\ 0 < k2 < PI /\ sin (w / 2) * sqrt 1 = g_courant g * sin (PI / 20 / 2) /\ sin (w / 2) * sqrt 4 = g_courant g * sin (k2 / 2)
  /\ sin (k2 / 2) = 2 * sin (PI / 20 / 2)
  /\ oscillates w (at_interface (PI / 20) k2 25) g 0 16 34 /\ run_steps 7 g = Ok g'.
Proof.
  destruct stack_base as (g0 & eps & sig & I & [C0' C1'] & F & St & L4 & S40 & NY & NZ & Rn). pose proof PI_RGT_0 as PP. pose proof PI_4 as P4.
  assert (SK : 0 < sin (PI / 20 / 2)) by (apply sin_gt_0; lra).
  assert (SK1 : sin (PI / 20 / 2) < 1 / 2).
  { apply Rlt_trans with (PI / 20 / 2); [apply sin_lt_x; lra|lra]. }
  destruct (solve_sine (g_courant g0 * sin (PI / 20 / 2))) as (w & Wb & Dw).
  { split; [apply Rmult_lt_0_compat; assumption|]. apply Rle_lt_trans with (g_courant g0 * 1); [apply Rmult_le_compat_l; lra|lra]. }
  destruct (solve_sine (2 * sin (PI / 20 / 2))) as (k2 & K2 & D2); [lra|].
  set (A := at_interface (PI / 20) k2 25). set (g := with_fields g0 (E_osc w A 0) (H_osc (g_courant g0) w A 0) 0 (g_boundaries g0) (g_detectors g0)).
  destruct (Rn (E_osc w A 0) (H_osc (g_courant g0) w A 0) 7%nat) as [g' R7].
  exists g0, g, g', w, k2. split; [exact I|]. split; [reflexivity|]. split.
  { destruct (sub_columns g0 eps sig 16 54 16 34 ltac:(lia) ltac:(lia) F) as (H1 & H2 & H3 & H4). split; [exact H1|]. split; [exact H2|]. split; [exact H3|].
    intros p G L. destruct (H4 p G L) as (M1 & M2 & M3). cbn [g with_fields g_ie g_abs g_im]. rewrite M1, M2, M3. unfold two_materials.
    destruct (Nat.ltb_spec (coord AX p) 25) as [V|V].
    - destruct (St (coord AX p)) as (_ & _ & Q). destruct (Q ltac:(lia)) as [-> ->]. auto.
    - destruct (L4 (coord AX p) ltac:(lia)) as [-> ->]. auto. }
  split; [exact C0'|]. split; [exact K2|]. split; [rewrite sqrt_1, Dw; cbn [g with_fields g_courant]; ring|]. split; [|split; [exact D2|split; [|exact R7]]].
  - replace 4 with (2 * 2) by ring. rewrite sqrt_square by lra. rewrite Dw, D2. cbn [g with_fields g_courant]. ring.
  - intros p c G L. split; reflexivity.
Qed.
