From Coq Require Import Reals ZArith List Bool Lra Lia.
From Verif Require Import Base BaseLemmas Model_Units Model_FDTD Model_Register Spec_FDTD Spec_Wave.
Import ListNotations.
Open Scope R_scope.

Lemma sin_concave C x : 0 <= C <= 1 -> 0 <= x <= PI / 2 -> C * sin x <= sin (C * x).
Proof.
  intros HC [X0 X1]. destruct (Req_dec x 0) as [->|N]; [rewrite Rmult_0_r, sin_0; lra|].
  destruct (MVT_cor2 (fun t => sin (C * t) - C * sin t) (fun t => C * cos (C * t) - C * cos t) 0 x) as (t & E & T).
  - lra.
  - intros t _. apply (derivable_pt_lim_minus (fun t => sin (C * t)) (fun t => C * sin t)).
    + rewrite Rmult_comm. apply (derivable_pt_lim_comp (fun t => C * t) sin); [|apply derivable_pt_lim_sin].
      pose proof (derivable_pt_lim_scal id C t 1 (derivable_pt_lim_id t)) as Q. rewrite Rmult_1_r in Q. exact Q.
    + apply (derivable_pt_lim_scal sin C t (cos t)), derivable_pt_lim_sin.
  - rewrite !Rmult_0_r, sin_0, Rmult_0_r, Rminus_0_r in E.
    assert (Ct : C * t <= t) by (rewrite <- (Rmult_1_l t) at 2; apply Rmult_le_compat_r; lra).
    assert (0 <= C * t) by (apply Rmult_le_pos; lra).
    assert (D : cos t <= cos (C * t)) by (apply cos_decr_1; pose proof PI_RGT_0; lra).
    assert (0 <= C * (cos (C * t) - cos t)) by (apply Rmult_le_pos; lra).
    assert (0 <= (C * cos (C * t) - C * cos t) * (x - 0)) by (apply Rmult_le_pos; lra). lra.
Qed.

Lemma sin_cubic x : 0 <= x <= PI -> x - x ^ 3 / 6 <= sin x.
Proof.
  intros H. pose proof (sin_bound x 0 (proj1 H) (proj2 H)) as [B _]. cbn in B. unfold sin_approx, sin_term in B. cbn in B. lra.
Qed.

Lemma dispersion C k w : 0 < C <= 1 -> 0 < k <= PI -> 0 <= w <= PI -> sin (w / 2) = C * sin (k / 2) ->
  C * k * (1 - k ^ 2 / 24) <= w <= C * k.
Proof.
  intros HC HK HW E. pose proof PI_RGT_0 as P. split.
  - assert (S1 : k / 2 - (k / 2) ^ 3 / 6 <= sin (k / 2)) by (apply sin_cubic; lra).
    assert (S2 : C * (k / 2 - (k / 2) ^ 3 / 6) <= C * sin (k / 2)) by (apply Rmult_le_compat_l; lra).
    assert (S3 : sin (w / 2) <= w / 2).
    { destruct (Req_dec w 0) as [->|N]; [replace (0 / 2) with 0 by field; rewrite sin_0; lra|]. left. apply sin_lt_x. lra. }
    replace (C * k * (1 - k ^ 2 / 24)) with (2 * (C * (k / 2 - (k / 2) ^ 3 / 6))) by field. lra.
  - assert (S1 : C * sin (k / 2) <= sin (C * (k / 2))) by (apply sin_concave; lra).
    assert (S2 : C * (k / 2) <= 1 * (k / 2)) by (apply Rmult_le_compat_r; lra).
    assert (S3 : 0 <= C * (k / 2)) by (apply Rmult_le_pos; lra).
    assert (w / 2 <= C * (k / 2)) by (apply sin_incr_0; lra). lra.
Qed.

Lemma PI_upper : PI <= 319 / 100.
Proof.
  pose proof (PI_ineq 10) as [_ U]. cbn [Nat.mul Nat.add] in U. unfold tg_alt, PI_tg in U. cbn [sum_f_R0 pow] in U. cbn [Nat.mul Nat.add] in U.
  rewrite !S_INR in U. cbn [INR] in U. lra.
Qed.

Lemma make_grid_facts shape sp eps mu co g : make_grid shape sp eps mu co = Ok g ->
  g_time_step g = g_courant g * g_spacing g / SPEED_OF_LIGHT /\ g_spacing g = sp /\ g_courant g <= 1 /\ bare g eps mu /\ g_detectors g = [].
Proof.
  intros H. destruct shape as [|x [|y [|z [|? ?]]]]; try discriminate. unfold make_grid in H.
  destruct (max_courant _) as [cm|] eqn:M; [|discriminate]. cbn [bind] in H.
  assert (CM : 0 < cm <= 1).
  { unfold max_courant in M. destruct (Nat.eqb_spec (sim_dim (shape_of (Z.to_nat (handle_distance sp x)) (Z.to_nat (handle_distance sp y)) (Z.to_nat (handle_distance sp z)))) 0) as [|Ne]; [discriminate|].
    injection M as <-. set (D := sim_dim _) in *. assert (D1 : 1 <= INR D) by (apply (le_INR 1); lia).
    assert (S1 : 1 <= sqrt (INR D)) by (rewrite <- sqrt_1; apply sqrt_le_1; lra).
    split; [apply Rinv_0_lt_compat; lra|]. rewrite <- Rinv_1. apply Rinv_le_contravar; lra. }
  destruct (match co with None => _ | Some _ => _ end) as [c|] eqn:Co; [|discriminate]. cbn [bind] in H.
  destruct (ensure _ _); [|discriminate]. cbn [bind] in H. injection H as <-. cbn.
  split; [reflexivity|]. split; [reflexivity|]. split; [|repeat split].
  destruct co as [c'|]; [|injection Co as <-; lra]. destruct (Rltb cm c') eqn:L; [discriminate|]. injection Co as <-.
  unfold Rltb in L. destruct (Rlt_dec cm c'); [discriminate|]. lra.
Qed.

Lemma speed shape sp eps mu co g M : make_grid shape sp eps mu co = Ok g -> 0 < sp -> 0 < g_courant g -> 1 <= eps * mu -> 2 <= M ->
  exists w, 0 < w <= PI /\ sin (w / 2) = g_courant g / sqrt (eps * mu) * sin (PI / M)
    /\ let v := (w / g_time_step g) / (2 * PI / (M * g_spacing g)) in
       (1 - (2 * PI / M) ^ 2 / 24) * (SPEED_OF_LIGHT / sqrt (eps * mu)) <= v <= SPEED_OF_LIGHT / sqrt (eps * mu)
       /\ (10 <= M -> 983 / 1000 * (SPEED_OF_LIGHT / sqrt (eps * mu)) <= v).
Proof.
  intros G Hs HC He HM. destruct (make_grid_facts _ _ _ _ _ _ G) as (T & Sp & C1 & _ & _).
  assert (Q1 : 1 <= sqrt (eps * mu)) by (rewrite <- sqrt_1; apply sqrt_le_1; lra). set (q := sqrt (eps * mu)) in *.
  set (C := g_courant g / q). assert (CC : 0 < C <= 1).
  { unfold C. split; [apply Rdiv_lt_0_compat; lra|]. apply Rmult_le_reg_r with q; [lra|]. unfold Rdiv. rewrite Rmult_assoc, Rinv_l, Rmult_1_r, Rmult_1_l by lra. lra. }
  pose proof PI_RGT_0 as P. set (k := 2 * PI / M). assert (K : 0 < k <= PI).
  { unfold k. split; [apply Rdiv_lt_0_compat; lra|]. apply Rmult_le_reg_r with M; [lra|]. unfold Rdiv. rewrite Rmult_assoc, Rinv_l, Rmult_1_r by lra. assert (PI * 2 <= PI * M) by (apply Rmult_le_compat_l; lra). lra. }
  replace (PI / M) with (k / 2) by (unfold k; field; lra).
  assert (SK : 0 < sin (k / 2) <= 1) by (split; [apply sin_gt_0; lra|apply SIN_bound]).
  assert (CS : 0 < C * sin (k / 2) <= 1).
  { split; [apply Rmult_lt_0_compat; lra|]. rewrite <- (Rmult_1_l 1). apply Rmult_le_compat; lra. }
  pose proof (asin_bound (C * sin (k / 2))) as AB. assert (E : sin (asin (C * sin (k / 2))) = C * sin (k / 2)) by (apply sin_asin; lra).
  assert (A0 : 0 < asin (C * sin (k / 2))).
  { apply Rnot_le_lt. intros L. pose proof (sin_incr_1 (asin (C * sin (k / 2))) 0 ltac:(lra) ltac:(lra) ltac:(lra) ltac:(lra) L) as Q. rewrite sin_0 in Q. lra. }
  exists (2 * asin (C * sin (k / 2))). replace (2 * asin (C * sin (k / 2)) / 2) with (asin (C * sin (k / 2))) by field.
  split; [lra|]. split; [exact E|]. set (w := 2 * asin (C * sin (k / 2))).
  assert (D : C * k * (1 - k ^ 2 / 24) <= w <= C * k).
  { apply dispersion; [exact CC|exact K|unfold w; lra|]. unfold w. replace (2 * asin (C * sin (k / 2)) / 2) with (asin (C * sin (k / 2))) by field. exact E. }
  assert (SL : 0 < SPEED_OF_LIGHT) by (unfold SPEED_OF_LIGHT; lra). rewrite T. rewrite Sp.
  assert (V : w / (g_courant g * sp / SPEED_OF_LIGHT) / (2 * PI / (M * sp)) = w / (C * k) * (SPEED_OF_LIGHT / q)) by (unfold C, k; field; repeat split; lra).
  cbn zeta. fold k. rewrite V. assert (CK : 0 < C * k) by (apply Rmult_lt_0_compat; lra). assert (SQ : 0 < SPEED_OF_LIGHT / q) by (apply Rdiv_lt_0_compat; lra).
  assert (W1 : 1 - k ^ 2 / 24 <= w / (C * k)).
  { apply Rmult_le_reg_r with (C * k); [exact CK|]. unfold Rdiv at 2. rewrite Rmult_assoc, Rinv_l, Rmult_1_r by lra. lra. }
  assert (W2 : w / (C * k) <= 1).
  { apply Rmult_le_reg_r with (C * k); [exact CK|]. unfold Rdiv. rewrite Rmult_assoc, Rinv_l, Rmult_1_r by lra. lra. }
  split; [split|].
  - apply Rmult_le_compat_r; lra.
  - rewrite <- (Rmult_1_l (SPEED_OF_LIGHT / q)) at 2. apply Rmult_le_compat_r; lra.
  - intros M10. apply Rmult_le_compat_r; [lra|]. eapply Rle_trans; [|exact W1]. pose proof PI_upper.
    assert (K1 : k <= 638 / 1000).
    { unfold k. apply Rmult_le_reg_r with M; [lra|]. unfold Rdiv. rewrite Rmult_assoc, Rinv_l, Rmult_1_r by lra. lra. }
    assert (k ^ 2 <= (638 / 1000) ^ 2) by (apply pow_incr; lra). lra.
Qed.
