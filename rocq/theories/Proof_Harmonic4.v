From Coq Require Import Reals ZArith List Bool Lra Lia Psatz.
From Verif Require Import Base BaseLemmas Cplx CplxLemmas Model_FDTD Spec_FDTD Spec_Harmonic Proof_Harmonic2 Proof_Wave2.
Import ListNotations.
Open Scope R_scope.

Section Interface.
  Variables (co w k1 k2 e1 e2 : R) (m : nat).
  Hypothesis Co : 0 < co.
  Hypothesis K1 : 0 < k1 < PI.
  Hypothesis K2 : 0 < k2 < PI.
  Hypothesis E1 : 0 < e1.
  Hypothesis E2 : 0 < e2.
  Hypothesis D1 : sin (w / 2) * sqrt e1 = co * sin (k1 / 2).
  Hypothesis D2 : sin (w / 2) * sqrt e2 = co * sin (k2 / 2).

  Lemma sum_pos : 0 < sin ((k2 + k1) / 2).
  Proof. apply sin_gt_0; lra. Qed.

  Lemma factor e k : 0 < e -> sin (w / 2) * sqrt e = co * sin (k / 2) ->
    (RtoC 2 - RtoC (4 * sin (w / 2) * e / co ^ 2) * (sin (w / 2), (0 * cos (w / 2))%R))%C = RtoC (2 * cos k).
  Proof.
    intros He D. replace k with (2 * (k / 2)) at 1 by field. rewrite cos_2a_sin.
    assert (Q : sin (w / 2) * sin (w / 2) * e = co ^ 2 * (sin (k / 2) * sin (k / 2))).
    { rewrite <- (sqrt_sqrt e) at 1 by lra. transitivity ((sin (w / 2) * sqrt e) * (sin (w / 2) * sqrt e)); [ring|]. rewrite D. ring. }
    apply Ceq; cbn; [|ring]. transitivity (2 - 4 * (sin (w / 2) * sin (w / 2) * e) / (co * (co * 1))); [field; lra|].
    rewrite Q. field. lra.
  Qed.

  (** the two waves meet half a column before [m] *)
  Lemma meet : (Cis (k1 / 2) - RtoC (grid_rho k1 k2) * Cis (- (k1 / 2)))%C = (RtoC (grid_tau k1 k2) * Cis (k2 / 2))%C
    /\ (Cis (- (k1 / 2)) - RtoC (grid_rho k1 k2) * Cis (k1 / 2))%C = (RtoC (grid_tau k1 k2) * Cis (- (k2 / 2)))%C.
  Proof.
    pose proof sum_pos as P. unfold grid_rho, grid_tau. replace ((k2 + k1) / 2) with (k2 / 2 + k1 / 2) in * by field. replace ((k2 - k1) / 2) with (k2 / 2 - k1 / 2) by field.
    assert (S1 : sin k1 = 2 * sin (k1 / 2) * cos (k1 / 2)) by (rewrite <- sin_2a; f_equal; field). rewrite S1.
    rewrite sin_plus in *. rewrite sin_minus.
    pose proof (sin2_cos2 (k1 / 2)) as Q1. unfold Rsqr in Q1. unfold Cis. rewrite !cos_neg, !sin_neg.
    set (s1 := sin (k1 / 2)) in *. set (c1 := cos (k1 / 2)) in *. set (s2 := sin (k2 / 2)) in *. set (c2 := cos (k2 / 2)) in *.
    split; apply Ceq; cbn; field; lra.
  Qed.

  Lemma wave_rec k y : (Cis (k * (y + 1)) + Cis (k * (y - 1)))%C = (RtoC (2 * cos k) * Cis (k * y))%C
    /\ (Cis (- (k * (y + 1))) + Cis (- (k * (y - 1))))%C = (RtoC (2 * cos k) * Cis (- (k * y)))%C.
  Proof.
    replace (k * (y + 1)) with (k * y + k) by ring. replace (k * (y - 1)) with (k * y - k) by ring. unfold Cis.
    split; apply Ceq; cbn; rewrite ?cos_neg, ?sin_neg, ?cos_plus, ?sin_plus, ?cos_minus, ?sin_minus; ring.
  Qed.

  Lemma interface_balanced x : (1 <= x)%nat -> balanced co w (two_materials e1 e2 m) (fun _ => 0) (at_interface k1 k2 m) x.
  Proof.
    intros Hx. unfold balanced. destruct meet as [M1 M2].
    set (L := fun y : R => (Cis (k1 * y) - RtoC (grid_rho k1 k2) * Cis (- (k1 * y)))%C).
    set (T := fun y : R => (RtoC (grid_tau k1 k2) * Cis (k2 * y))%C).
    assert (AL : forall z, (z <= m)%nat -> at_interface k1 k2 m z = L (INR z - INR m + / 2)).
    { intros z Hz. unfold at_interface. destruct (Nat.ltb_spec z m) as [|G]; [reflexivity|]. assert (z = m) by lia. subst z.
      replace (INR m - INR m + / 2) with (/ 2) by ring. unfold L. change (k1 * / 2) with (k1 / 2). rewrite M1. reflexivity. }
    assert (AR : forall z, (m <= S z)%nat -> at_interface k1 k2 m z = T (INR z - INR m + / 2)).
    { intros z Hz. unfold at_interface. destruct (Nat.ltb_spec z m) as [G|G]; [|reflexivity]. assert (m = S z) by lia. subst m. rewrite S_INR.
      replace (INR z - (INR z + 1) + / 2) with (- / 2) by field. unfold T.
      replace (k1 * - / 2) with (- (k1 / 2)) by field. replace (k2 * - / 2) with (- (k2 / 2)) by field. rewrite Ropp_involutive. exact M2. }
    unfold two_materials. destruct (Nat.ltb_spec x m) as [G|G].
    - rewrite (factor e1 k1 E1 D1). rewrite !AL by lia. rewrite S_INR, minus_INR by exact Hx. cbn [INR]. set (y := INR x - INR m + / 2).
      replace (INR x + 1 - INR m + / 2) with (y + 1) by (unfold y; ring). replace (INR x - 1 - INR m + / 2) with (y - 1) by (unfold y; ring).
      unfold L. destruct (wave_rec k1 y) as [W1 W2].
      transitivity ((Cis (k1 * (y + 1)) + Cis (k1 * (y - 1))) - RtoC (grid_rho k1 k2) * (Cis (- (k1 * (y + 1))) + Cis (- (k1 * (y - 1)))))%C; [ring|].
      rewrite W1, W2. ring.
    - rewrite (factor e2 k2 E2 D2). rewrite !AR by lia. rewrite S_INR, minus_INR by exact Hx. cbn [INR]. set (y := INR x - INR m + / 2).
      replace (INR x + 1 - INR m + / 2) with (y + 1) by (unfold y; ring). replace (INR x - 1 - INR m + / 2) with (y - 1) by (unfold y; ring).
      unfold T. destruct (wave_rec k2 y) as [W1 _].
      transitivity (RtoC (grid_tau k1 k2) * (Cis (k2 * (y + 1)) + Cis (k2 * (y - 1))))%C; [ring|]. rewrite W1. ring.
  Qed.
End Interface.

Lemma interface_power k1 k2 : 0 < k1 < PI -> 0 < k2 < PI -> grid_rho k1 k2 ^ 2 + grid_tau k1 k2 ^ 2 * (sin k2 / sin k1) = 1.
Proof.
  intros K1 K2. assert (P : 0 < sin ((k2 + k1) / 2)) by (apply sin_gt_0; lra). assert (S1' : 0 < sin k1) by (apply sin_gt_0; lra).
  assert (Q : sin ((k2 - k1) / 2) ^ 2 + sin k1 * sin k2 = sin ((k2 + k1) / 2) ^ 2).
  { replace ((k2 + k1) / 2) with (k2 / 2 + k1 / 2) by field. replace ((k2 - k1) / 2) with (k2 / 2 - k1 / 2) by field.
    assert (A1 : sin k1 = 2 * sin (k1 / 2) * cos (k1 / 2)) by (rewrite <- sin_2a; f_equal; field).
    assert (A2 : sin k2 = 2 * sin (k2 / 2) * cos (k2 / 2)) by (rewrite <- sin_2a; f_equal; field).
    rewrite A1, A2, sin_plus, sin_minus. ring. }
  unfold grid_rho, grid_tau. transitivity ((sin ((k2 - k1) / 2) ^ 2 + sin k1 * sin k2) / sin ((k2 + k1) / 2) ^ 2); [field; lra|]. rewrite Q. field. lra.
Qed.

(** against Fresnel's formula *)
Lemma interface_fresnel n k k2 : 1 <= n -> 0 < k < PI -> 0 < k2 < PI -> sin (k2 / 2) = n * sin (k / 2) ->
  0 <= grid_rho k k2 - (n - 1) / (n + 1) <= (1 / cos (k2 / 2) - 1) / 2.
Proof.
  intros Hn K K2 D. pose proof PI_RGT_0 as P.
  assert (s1 : 0 < sin (k / 2)) by (apply sin_gt_0; lra). assert (c1 : 0 < cos (k / 2)) by (apply cos_gt_0; lra). assert (c2 : 0 < cos (k2 / 2)) by (apply cos_gt_0; lra).
  assert (s2 : 0 < sin (k2 / 2)) by (apply sin_gt_0; lra).
  assert (R0 : grid_rho k k2 = (n * cos (k / 2) - cos (k2 / 2)) / (n * cos (k / 2) + cos (k2 / 2))).
  { unfold grid_rho. replace ((k2 + k) / 2) with (k2 / 2 + k / 2) by field. replace ((k2 - k) / 2) with (k2 / 2 - k / 2) by field.
    rewrite sin_plus, sin_minus, D. assert (0 < n * cos (k / 2)) by (apply Rmult_lt_0_compat; lra). field. split; [lra|].
    replace (n * sin (k / 2) * cos (k / 2) + cos (k2 / 2) * sin (k / 2)) with (sin (k / 2) * (n * cos (k / 2) + cos (k2 / 2))) by ring.
    apply Rmult_integral_contrapositive_currified; lra. }
  assert (c12 : cos (k2 / 2) <= cos (k / 2)).
  { apply cos_decr_1; try lra. apply sin_incr_0; try lra. rewrite D. assert (0 <= (n - 1) * sin (k / 2)) by (apply Rmult_le_pos; lra). lra. }
  assert (cb : cos (k / 2) <= 1) by apply COS_bound.
  rewrite R0. set (x := cos (k / 2)) in *. set (y := cos (k2 / 2)) in *. assert (nx : 0 < n * x) by (apply Rmult_lt_0_compat; lra).
  assert (I : (n * x - y) / (n * x + y) - (n - 1) / (n + 1) = 2 * n * (x - y) / ((n * x + y) * (n + 1))) by (field; lra).
  rewrite I. assert (Dp : 0 < (n * x + y) * (n + 1)) by (apply Rmult_lt_0_compat; lra). split.
  - apply Rmult_le_pos; [|left; apply Rinv_0_lt_compat, Dp]. apply Rmult_le_pos; lra.
  - apply Rle_trans with ((x / y - 1) / 2).
    + apply Rmult_le_reg_r with (2 * y * ((n * x + y) * (n + 1))); [apply Rmult_lt_0_compat; lra|].
      replace (2 * n * (x - y) / ((n * x + y) * (n + 1)) * (2 * y * ((n * x + y) * (n + 1)))) with (4 * n * y * (x - y)) by (field; lra).
      replace ((x / y - 1) / 2 * (2 * y * ((n * x + y) * (n + 1)))) with ((n * x + y) * (n + 1) * (x - y)) by (field; lra).
      apply Rmult_le_compat_r; [lra|]. assert (0 <= n * n * (x - y) + n * (x - y)) by nra. assert (0 <= (n - 1) ^ 2 * y) by (apply Rmult_le_pos; [apply pow2_ge_0|lra]). nra.
    + apply Rmult_le_compat_r; [lra|]. apply Rplus_le_compat_r. apply Rmult_le_compat_r; [left; apply Rinv_0_lt_compat, c2|exact cb].
Qed.
Lemma interface_ten n k k2 : 1 <= n -> 0 < k < PI -> 0 < k2 <= 2 * PI / 10 -> sin (k2 / 2) = n * sin (k / 2) ->
  0 <= grid_rho k k2 - (n - 1) / (n + 1) <= 3 / 100.
Proof.
  intros Hn K K2 D. pose proof PI_RGT_0 as P. pose proof PI_upper as U. destruct (interface_fresnel n k k2 Hn K ltac:(lra) D) as [F1 F2]. split; [exact F1|].
  eapply Rle_trans; [exact F2|]. assert (H : k2 / 2 <= 319 / 1000) by lra.
  assert (Cc : 1 - (k2 / 2) ^ 2 / 2 <= cos (k2 / 2)).
  { pose proof (cos_bound (k2 / 2) 0 ltac:(lra) ltac:(lra)) as [B _]. cbn in B. unfold cos_approx, cos_term in B. cbn in B. lra. }
  assert (Q : (k2 / 2) ^ 2 <= (319 / 1000) ^ 2) by (apply pow_incr; lra).
  assert (C9 : 949 / 1000 <= cos (k2 / 2)) by lra.
  assert (I : / cos (k2 / 2) <= / (949 / 1000)) by (apply Rinv_le_contravar; lra). unfold Rdiv at 2. rewrite Rmult_1_l. lra.
Qed.

Lemma interface_runs e1 e2 m w k1 k2 g g' lo hi n j : 0 < e1 -> 0 < e2 -> 0 < k1 < PI -> 0 < k2 < PI ->
  free_columns g (two_materials e1 e2 m) (fun _ => 0) lo hi -> 0 < g_courant g ->
  sin (w / 2) * sqrt e1 = g_courant g * sin (k1 / 2) -> sin (w / 2) * sqrt e2 = g_courant g * sin (k2 / 2) ->
  oscillates w (at_interface k1 k2 m) g n lo hi -> run_steps j g = Ok g' ->
  oscillates w (at_interface k1 k2 m) g' (n + j) (lo + j) (hi - j).
Proof.
  intros E1 E2 K1 K2 F Co D1 D2 O Rn. apply (oscillation (two_materials e1 e2 m) (fun _ => 0) w _ g g' lo hi n j F); try assumption.
  - intros H. rewrite H in D1. assert (0 < sin (k1 / 2)) by (apply sin_gt_0; lra). assert (0 < g_courant g * sin (k1 / 2)) by (apply Rmult_lt_0_compat; lra). lra.
  - intros x _. unfold two_materials. destruct (x <? m)%nat; lra.
  - intros x Hx. apply interface_balanced; try assumption. lia.
Qed.

(** what the two amplitudes become if one cell is a small part of a wavelength *)
Lemma interface_indices n1 n2 w co k1 k2 : 0 < n1 -> 0 < n2 -> 0 < k1 < PI -> 0 < k2 < PI -> 0 < co ->
  sin (w / 2) * n1 = co * sin (k1 / 2) -> sin (w / 2) * n2 = co * sin (k2 / 2) ->
  grid_rho k1 k2 = (n2 * cos (k1 / 2) - n1 * cos (k2 / 2)) / (n2 * cos (k1 / 2) + n1 * cos (k2 / 2))
  /\ grid_tau k1 k2 = 2 * n1 * cos (k1 / 2) / (n2 * cos (k1 / 2) + n1 * cos (k2 / 2)).
Proof.
  intros N1 N2 K1 K2 Co D1 D2. assert (s1 : 0 < sin (k1 / 2)) by (apply sin_gt_0; lra). assert (s2 : 0 < sin (k2 / 2)) by (apply sin_gt_0; lra).
  assert (c1 : 0 < cos (k1 / 2)) by (apply cos_gt_0; lra). assert (c2 : 0 < cos (k2 / 2)) by (apply cos_gt_0; lra).
  assert (Sw : 0 < sin (w / 2)).
  { assert (H : 0 < co * sin (k1 / 2)) by (apply Rmult_lt_0_compat; lra). rewrite <- D1 in H. apply Rmult_lt_reg_r with n1; lra. }
  assert (S1 : sin (k1 / 2) = sin (w / 2) * n1 / co) by (rewrite D1; field; lra). assert (S2 : sin (k2 / 2) = sin (w / 2) * n2 / co) by (rewrite D2; field; lra).
  unfold grid_rho, grid_tau. replace ((k2 + k1) / 2) with (k2 / 2 + k1 / 2) by field. replace ((k2 - k1) / 2) with (k2 / 2 - k1 / 2) by field.
  assert (A1 : sin k1 = 2 * sin (k1 / 2) * cos (k1 / 2)) by (rewrite <- sin_2a; f_equal; field). rewrite A1, sin_plus, sin_minus, S1, S2.
  assert (X : 0 < n2 * cos (k1 / 2)) by (apply Rmult_lt_0_compat; lra). assert (Y : 0 < n1 * cos (k2 / 2)) by (apply Rmult_lt_0_compat; lra).
  assert (Z : 0 < sin (w / 2) * n2 * cos (k1 / 2) + cos (k2 / 2) * sin (w / 2) * n1).
  { replace (sin (w / 2) * n2 * cos (k1 / 2) + cos (k2 / 2) * sin (w / 2) * n1) with (sin (w / 2) * (n2 * cos (k1 / 2) + n1 * cos (k2 / 2))) by ring. apply Rmult_lt_0_compat; lra. }
  split; field; lra.
Qed.
