(** Property theorems C104: the coefficients computed from signals that have settled.  The
    words used in the statements ([steady], [near_steady], [flat_crest], [crest_margin],
    [settles], [detected], ...) are defined in Spec_Steady.v, those about the simulation in
    Spec_Harmonic.v, Spec_Layout.v and Spec_Slab.v. *)
From Coq Require Import Reals ZArith String List Bool Lra Lia.
From Verif Require Import Base Cplx PyVal Spec_Config Model_Units Model_Coeffs Model_FDTD Model_Register Spec_FDTD Spec_Register Model_Layout Spec_Layout Model_TMM Spec_TMM Spec_Harmonic Spec_Slab Spec_Steady
  Proof_Steady Proof_Steady2 Proof_Steady3 Proof_Steady4.
Import ListNotations.
Open Scope R_scope.

(** C104: the power found for an oscillation is exactly half its squared amplitude, for any
    number of samples per period and any number of periods and rest, if some sample is the
    highest of its period. *)
Theorem C104_power : forall P a ph s, (3 <= P)%nat -> 0 < a -> steady P a ph s -> (2 * P + 2 <= length s)%nat -> ~ flat_crest s ->
  signal_power s = Ok (a ^ 2 / 2).
Proof. exact power_exact. Qed.
Print Assumptions C104_power.
Example C104_power_case : steady 8 1 0 ex_tf /\ ~ flat_crest ex_tf.
Proof. exact exact_case. Qed.
(** If the crest falls in the middle between two samples no peak is found, and the power is
    too small. *)
Theorem C104_flat_crest : forall P a ph s, (3 <= P)%nat -> 0 < a -> steady P a ph s -> (2 * P + 2 <= length s)%nat -> flat_crest s ->
  signal_power s = Ok (a ^ 2 * cos (PI / INR P) ^ 2 / 2).
Proof. exact power_flat. Qed.
Print Assumptions C104_flat_crest.
Example C104_flat_case : steady 4 1 (PI / 4) (samples 4 20 1 (PI / 4)) /\ flat_crest (samples 4 20 1 (PI / 4)) /\ signal_power (samples 4 20 1 (PI / 4)) = Ok (/ 4).
Proof. exact flat_case. Qed.
(** The power does not jump: an error of [err] per sample, too small to move the crest,
    changes it by at most err * (2 * a + err). *)
Theorem C104_robust : forall P a ph err eta s, (3 <= P)%nat -> 0 < a -> near_steady err P a ph s -> 0 < eta <= / 2 -> crest_off_middle P ph eta ->
  2 * err < crest_margin P a eta -> (2 * P + 2 <= length s)%nat -> exists p, signal_power s = Ok p /\ power_near err a p.
Proof. exact near_power. Qed.
Print Assumptions C104_robust.
(** The coefficients: the four powers are those of the four amplitudes, up to the error. *)
Theorem C104_coefficients : forall w err P a1 b1 a2 b2 tf tm rf rm, (3 <= P)%nat -> 0 <= a1 -> 0 <= b1 -> 0 <= a2 -> 0 <= b2 ->
  length rm = length rf -> / 10 ^ 15 < mean_square tf -> / 10 ^ 15 < mean_square rf ->
  settles w true err P a1 tf -> settles w false err P b1 tm -> settles w true err P a2 rf -> settles w false err P b2 (map2 Rminus rm rf) ->
  exists p1 p2 p3 p4, power_near err a1 p1 /\ power_near err b1 p2 /\ power_near err a2 p3 /\ power_near err b2 p4
    /\ calculate_coefficients w tf tm rf rm = Ok (check_and_normalize (tdiv (Fin p2) (Fin p1)) (tdiv (Fin p4) (Fin p3))).
Proof. exact coefficients. Qed.
Print Assumptions C104_coefficients.
(** Each ratio is then within 13 times the relative error of the squared ratio of amplitudes. *)
Theorem C104_error : forall err a b p q, 0 < a -> 0 <= b <= a -> 0 <= err -> 16 * err <= a -> power_near err a p -> power_near err b q ->
  0 < p /\ tdiv (Fin q) (Fin p) = Fin (q / p) /\ Rabs (q / p - (b / a) ^ 2) <= 13 * (err / a).
Proof. exact ratio_error. Qed.
Print Assumptions C104_error.
Example C104_error_case : power_near (1 / 100) 1 (51 / 100) /\ power_near (1 / 100) (/ 2) (/ 8).
Proof. unfold power_near. split; apply Rabs_le; lra. Qed.
(** Without error they are exactly the squared ratios of amplitudes. *)
Theorem C104_exact : forall w P a1 b1 a2 b2 tf tm rf rm, (3 <= P)%nat -> 0 < a1 -> 0 <= b1 -> 0 < a2 -> 0 <= b2 ->
  length rm = length rf -> / 10 ^ 15 < mean_square tf -> / 10 ^ 15 < mean_square rf ->
  settles w true 0 P a1 tf -> settles w false 0 P b1 tm -> settles w true 0 P a2 rf -> settles w false 0 P b2 (map2 Rminus rm rf) ->
  (b1 / a1) ^ 2 + (b2 / a2) ^ 2 <= 1 ->
  calculate_coefficients w tf tm rf rm = Ok (Fin ((b1 / a1) ^ 2), Fin ((b2 / a2) ^ 2)).
Proof. exact exact_coefficients. Qed.
Print Assumptions C104_exact.
Example C104_case : forall err, 0 <= err -> 100 * err <= 1 ->
  settles 20 true err 8 1 ex_tf /\ settles 20 false err 8 (/ 2) ex_tm /\ settles 20 false err 8 (/ 3) (map2 Rminus ex_rm ex_tf)
  /\ length ex_rm = length ex_tf /\ / 10 ^ 15 < mean_square ex_tf.
Proof. exact ex_settles. Qed.
Example C104_case_result : calculate_coefficients 20 ex_tf ex_tm ex_tf ex_rm = Ok (Fin (/ 4), Fin (/ 9)).
Proof. exact ex_result. Qed.
(** Where such signals come from: the detectors record the oscillation of their column, *)
Theorem C104_column : forall w A g n lo hi x, oscillates w A g n lo hi -> (lo <= x <= hi)%nat -> (x < g_N g AX)%nat -> (3 <= g_N g AY)%nat -> (1 <= g_N g AZ)%nat ->
  column_mean g x = Re (A x * Cis (- (w * INR n)))%C.
Proof. exact column_of. Qed.
Print Assumptions C104_column.
(** sample by sample, *)
Theorem C104_recorded : forall f (obj : option eps_slice) wl t r g err n0 P z, proper f -> 1 <= f_scaling f * f_pml f -> known_kinds f -> 0 < wl ->
  (obj = None \/ exists slice row layers, obj = Some slice /\ get slice 0 = Ok row /\ get row 0 = Ok layers) ->
  simulate f obj wl = Ok (t, r) -> init_fdtd f obj wl = Ok g ->
  (detected err n0 P z t <-> forall n, (n0 <= n < Z.to_nat (f_niter f))%nat -> exists gn, run_steps (S n) g = Ok gn
     /\ Rabs (column_mean gn (transmission_column f) - Re (z * Cis (- (2 * PI / INR P * INR (S n))))%C) <= err)
  /\ (detected err n0 P z r <-> forall n, (n0 <= n < Z.to_nat (f_niter f))%nat -> exists gn, run_steps (S n) g = Ok gn
     /\ Rabs (column_mean gn (reflection_column f) - Re (z * Cis (- (2 * PI / INR P * INR (S n))))%C) <= err).
Proof. exact recorded. Qed.
Print Assumptions C104_recorded.
(** and what is left after the transient is removed is an oscillation if the column has
    settled before the part that is kept.  Its amplitude is the modulus of the column's. *)
Theorem C104_kept : forall err n0 P z w fs s o, (0 < P)%nat -> detected err n0 P z s -> eliminate_transient w fs s = Ok o -> (n0 + length o <= length s)%nat ->
  exists ph, near_steady err P (sqrt (Cnorm2 z)) ph o.
Proof. exact kept. Qed.
Print Assumptions C104_kept.
(** The difference of two recorded signals is the oscillation of the difference. *)
Theorem C104_difference : forall e1 e2 n0 P z1 z2 s1 s2, length s1 = length s2 -> detected e1 n0 P z1 s1 -> detected e2 n0 P z2 s2 ->
  detected (e1 + e2) n0 P (z1 - z2)%C (map2 Rminus s1 s2).
Proof. exact detected_minus. Qed.
Print Assumptions C104_difference.
Example C104_kept_case : detected 0 0 8 (Cis (2 * PI / INR 8)) ex_tf /\ eliminate_transient 20 true ex_tf = Ok ex_tf.
Proof.
  split.
  - intros n Hn. unfold ex_tf in *. rewrite samples_len in Hn. rewrite samples_nth by lia. rewrite (S_INR n).
    assert (E : Re (Cis (2 * PI / INR 8) * Cis (- (2 * PI / INR 8 * (INR n + 1))))%C = cos (2 * PI * INR n / INR 8 + 0)).
    { transitivity (cos (2 * PI / INR 8 + - (2 * PI / INR 8 * (INR n + 1)))); [unfold Cmul, Cis, Re, Im; cbn [fst snd]; rewrite cos_plus; ring|].
      rewrite <- cos_neg. f_equal. unfold Rdiv. ring. }
    rewrite E.
    rewrite Rmult_1_l, Rminus_diag_eq by reflexivity. rewrite Rabs_R0. lra.
  - apply Proof_Coeffs.eliminate_short; [apply stripped_samples; lra|unfold ex_tf; rewrite samples_len; lia].
Qed.
(** So for layers without loss the T and R reported from settled signals are those of the
    transfer-matrix code. *)
Theorem C104_transfer_matrix : forall arcsin co w k a b layers eps sig A r t wd P u tf tm rf rm, inverts_sine arcsin -> principal arcsin ->
  0 < co -> 0 < k < PI -> 0 < w < PI -> sin (w / 2) = co * sin (k / 2) ->
  (forall q, In q layers -> 0 < fst q /\ sqrt (fst q) * sin (k / 2) < 1) ->
  stands_between eps sig a b -> (forall x, sig x = 0) -> (2 <= a <= b)%nat ->
  (b + 1 = start a layers (length layers))%nat -> filled eps a layers -> scattered co w k eps sig a b A r t ->
  (3 <= P)%nat -> 0 < u -> length rm = length rf -> / 10 ^ 15 < mean_square tf -> / 10 ^ 15 < mean_square rf ->
  settles wd true 0 P u tf -> settles wd false 0 P (u * sqrt (Cnorm2 t)) tm -> settles wd true 0 P u rf -> settles wd false 0 P (u * sqrt (Cnorm2 r)) (map2 Rminus rm rf) ->
  exists D, coh_tmm arcsin "s"%string (slab_indices k layers) (slab_thicknesses k layers) C0 (2 * PI / k) = Ok D
    /\ calculate_coefficients wd tf tm rf rm = Ok (Fin (c_T D), Fin (c_R D)).
Proof. exact reported. Qed.
Print Assumptions C104_transfer_matrix.
Example C104_transfer_matrix_case : exists co eps sig w A r t tm rm, 0 < co /\ 0 < w < PI /\ sin (w / 2) = co * sin (PI / 20 / 2)
  /\ (forall q, In q glass_cells -> 0 < fst q /\ sqrt (fst q) * sin (PI / 20 / 2) < 1)
  /\ stands_between eps sig 25 44 /\ (forall x, sig x = 0) /\ (44 + 1 = start 25 glass_cells (length glass_cells))%nat /\ filled eps 25 glass_cells
  /\ scattered co w (PI / 20) eps sig 25 44 A r t /\ length rm = length ex_tf /\ / 10 ^ 15 < mean_square ex_tf
  /\ settles 20 true 0 8 1 ex_tf /\ settles 20 false 0 8 (1 * sqrt (Cnorm2 t)) tm /\ settles 20 false 0 8 (1 * sqrt (Cnorm2 r)) (map2 Rminus rm ex_tf).
Proof. exact reported_case. Qed.
