(** Property theorems C73: pulses. *)
From Coq Require Import Reals ZArith List Bool Lra.
From Verif Require Import Base BaseLemmas Model_FDTD Model_Waveforms Spec_Waveforms Proof_Waveforms.
Import ListNotations.
Open Scope R_scope.

(** The Gaussian pulse: its peak is 1 and it is at the center. *)
Theorem C73_gaussian_peak : forall x w c v,
  gaussian_pulse x w c = Ok v -> 0 < v <= 1 /\ (v = 1 <-> x = c).
Proof. exact pulse_range. Qed.
Print Assumptions C73_gaussian_peak.
(** [fwhm] is the full width at half maximum. *)
Theorem C73_gaussian_width : forall x w c v,
  gaussian_pulse x w c = Ok v -> (1 / 2 <= v <-> Rabs (x - c) <= Rabs w / 2).
Proof. exact pulse_width. Qed.
Print Assumptions C73_gaussian_width.
Theorem C73_gaussian_symmetric : forall d w c,
  gaussian_pulse (c + d) w c = gaussian_pulse (c - d) w c.
Proof. exact pulse_symmetric. Qed.
Print Assumptions C73_gaussian_symmetric.
Theorem C73_gaussian_falls : forall x x' w c v v',
  gaussian_pulse x w c = Ok v -> gaussian_pulse x' w c = Ok v' -> (Rabs (x - c) < Rabs (x' - c) <-> v' < v).
Proof. exact pulse_falls. Qed.
Print Assumptions C73_gaussian_falls.
Theorem C73_gaussian_raises : forall x w c,
  gaussian_pulse x w c = Err ZeroDivisionError <-> w = 0.
Proof. exact pulse_zero_width. Qed.
Print Assumptions C73_gaussian_raises.
(** The other one is its derivative up to a factor, scaled to peaks of 1 and -1. *)
Theorem C73_derivative : forall x w c,
  w <> 0 ->
  derivable_pt_lim (fun t => value_of (gaussian_pulse t w c)) x
    (- (exp (- (1 / 2)) / (w / fwhm_constant)) * value_of (gaussian_derivative_pulse x w c)).
Proof. exact derivative_is. Qed.
Print Assumptions C73_derivative.
Theorem C73_derivative_peaks : forall x w c v,
  gaussian_derivative_pulse x w c = Ok v ->
  Rabs v <= 1 /\ (v = 1 <-> x = c + w / fwhm_constant) /\ (v = -1 <-> x = c - w / fwhm_constant).
Proof. exact derivative_range. Qed.
Print Assumptions C73_derivative_peaks.
Theorem C73_derivative_odd : forall d w c v,
  gaussian_derivative_pulse (c + d) w c = Ok v -> gaussian_derivative_pulse (c - d) w c = Ok (- v).
Proof. exact derivative_odd. Qed.
Print Assumptions C73_derivative_odd.
Theorem C73_derivative_raises : forall x w c,
  gaussian_derivative_pulse x w c = Err ZeroDivisionError <-> w = 0.
Proof. exact derivative_zero_width. Qed.
Print Assumptions C73_derivative_raises.
Example C73_case : (exists v, gaussian_pulse 3 2 1 = Ok v) /\ (exists v, gaussian_derivative_pulse 3 2 1 = Ok v)
  /\ gaussian_pulse 3 0 1 = Err ZeroDivisionError.
Proof.
  assert (N : 2 <> 0) by lra.
  split; [eexists; apply (pulse_value 3 2 1 N)|]. split; [eexists; apply (derivative_value 3 2 1 N)|apply pulse_zero_width; reflexivity].
Qed.

(** The signals of sources never exceed the amplitude. *)
Theorem C73_point_bound : forall amp s q v,
  point_value amp s q = Ok v -> Rabs v <= Rabs amp.
Proof. exact point_bound. Qed.
Print Assumptions C73_point_bound.
Theorem C73_line_bound : forall s q f,
  line_factor s q = Ok f -> Rabs f <= 1.
Proof. exact line_bound. Qed.
Print Assumptions C73_line_bound.
(** The Ricker pulse has its peak 1 after [offset] periods, its minimum is -2 exp(-3/2). *)
Theorem C73_ricker : forall q gpw offset courant,
  - (2 * exp (- (3 / 2))) <= ricker q gpw offset courant <= 1
  /\ (ricker q gpw offset courant = 1 <-> q * courant / gpw = offset).
Proof. exact ricker_range. Qed.
Print Assumptions C73_ricker.
Example C73_ricker_minimum : ricker (1 + sqrt (3 / 2) / PI) 1 1 1 = - (2 * exp (- (3 / 2))).
Proof.
  unfold ricker. pose proof PI_RGT_0.
  replace ((PI * ((1 + sqrt (3 / 2) / PI) * 1 / 1 - 1)) ^ 2) with (sqrt (3 / 2) * sqrt (3 / 2)) by (field; lra).
  rewrite sqrt_sqrt by lra. lra.
Qed.
Example C73_signals : exists v f, point_value 2 (Continuous 10 0) 3 = Ok v /\ line_factor (Ricker 5 1) 3 = Ok f.
Proof.
  eexists. exists (ricker (INR 3) 5 1 1). split; [reflexivity|]. cbn [line_factor]. unfold Rltb. destruct (Rlt_dec (INR 3) (5 * 6)) as [|N]; [reflexivity|].
  exfalso. apply N. cbn. lra.
Qed.
