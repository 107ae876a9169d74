(** Property theorems C01, C06, C07, C57. *)
From Coq Require Import Reals ZArith String List Bool Lra.
From Verif Require Import Base Model_Units Proof_Units.
Import ListNotations.
Open Scope R_scope.

(** C01 *)
Theorem C01_freq_wl_roundtrip : forall f, f <> 0 -> freq_to_wl (freq_to_wl f) = f.
Proof. exact freq_wl_roundtrip. Qed.
Print Assumptions C01_freq_wl_roundtrip.
Theorem C01_phys_wl_roundtrip : forall w,
  wl_to_phys_wl (phys_wl_to_wl w) = w /\ phys_wl_to_wl (wl_to_phys_wl w) = w.
Proof. exact phys_wl_roundtrip. Qed.
Print Assumptions C01_phys_wl_roundtrip.
Theorem C01_phys_freq_roundtrip : forall f, f <> 0 ->
  phys_freq_to_phys_wl (phys_freq_to_phys_wl f) = f.
Proof. exact phys_freq_roundtrip. Qed.
Print Assumptions C01_phys_freq_roundtrip.
Theorem C01_freq_to_wl_decreasing : forall a b, 0 < a < b -> 0 < freq_to_wl b < freq_to_wl a.
Proof. exact freq_to_wl_decreasing. Qed.
Print Assumptions C01_freq_to_wl_decreasing.
Theorem C01_phys_freq_decreasing : forall a b, 0 < a < b ->
  0 < phys_freq_to_phys_wl b < phys_freq_to_phys_wl a.
Proof. exact phys_freq_decreasing. Qed.
Print Assumptions C01_phys_freq_decreasing.
(** The scale itself: one micrometre is wavelength 1, frequency 1. *)
Example C01_scale : phys_wl_to_wl (/ 1000000) = 1 /\ freq_to_wl (phys_wl_to_wl (/ 500000)) = / 2.
Proof. unfold freq_to_wl, phys_wl_to_wl, UNIT_MAGNITUDE. split; field. Qed.

(** C06: N_freq strictly increasing frequencies spanning the band. *)
Theorem C06_target_frequencies : forall lo hi n dist,
  0 < lo < hi -> dist = "linear"%string \/ dist = "log"%string ->
  exists fs, compute_target_frequencies lo hi n dist = Ok fs
  /\ length fs = n
  /\ (forall i j, (i < j < n)%nat -> nth i fs 0 < nth j fs 0)
  /\ (forall i, (i < n)%nat -> / 1000000 / hi <= nth i fs 0 <= / 1000000 / lo)
  /\ ((0 < n)%nat -> nth 0 fs 0 = / 1000000 / hi)
  /\ ((1 < n)%nat -> nth (n - 1) fs 0 = / 1000000 / lo).
Proof. exact ctf_all. Qed.
Print Assumptions C06_target_frequencies.
Theorem C06_linear_spacing : forall lo hi n fs, 0 < lo < hi ->
  compute_target_frequencies lo hi n "linear" = Ok fs ->
  forall i, (i + 1 < n)%nat ->
  nth (i+1) fs 0 - nth i fs 0 = (/ 1000000 / lo - / 1000000 / hi) / INR (n - 1).
Proof. exact ctf_linear_spacing. Qed.
Print Assumptions C06_linear_spacing.
Theorem C06_log_ratio : forall lo hi n fs, 0 < lo < hi ->
  compute_target_frequencies lo hi n "log" = Ok fs ->
  forall i, (i + 1 < n)%nat ->
  nth (i+1) fs 0 / nth i fs 0 = Rpower (hi / lo) (/ INR (n - 1)).
Proof. exact ctf_log_ratio. Qed.
Print Assumptions C06_log_ratio.
Theorem C06_unknown_distribution : forall lo hi n dist,
  dist <> "linear"%string -> dist <> "log"%string ->
  compute_target_frequencies lo hi n dist = Err ValueError.
Proof. exact ctf_unknown. Qed.
Print Assumptions C06_unknown_distribution.

(** C07: wavelength i and frequency i are the same point; wavelengths decrease. *)
Theorem C07_frequency_points : forall lo hi n dist,
  0 < lo < hi -> dist = "linear"%string \/ dist = "log"%string ->
  exists wls fs, get_frequency_points lo hi n dist = Ok (wls, fs)
  /\ compute_target_frequencies lo hi n dist = Ok fs
  /\ length wls = n /\ length fs = n
  /\ (forall i, (i < n)%nat -> nth i wls 0 * nth i fs 0 = / 1000000)
  /\ (forall i j, (i < j < n)%nat -> nth j wls 0 < nth i wls 0)
  /\ (forall i, (i < n)%nat -> lo <= nth i wls 0 <= hi).
Proof. exact gfp_all. Qed.
Print Assumptions C07_frequency_points.
(** The default range 1um..30um meets the hypotheses. *)
Example C07_default_range : 0 < / 1000000 < 30 * / 1000000.
Proof. lra. Qed.

(** C57 *)
Theorem C57_sim_world_E : forall x,
  worldE_to_simE (simE_to_worldE x) = x /\ simE_to_worldE (worldE_to_simE x) = x.
Proof. exact sim_world_E. Qed.
Print Assumptions C57_sim_world_E.
Theorem C57_sim_world_H : forall x,
  worldH_to_simH (simH_to_worldH x) = x /\ simH_to_worldH (worldH_to_simH x) = x.
Proof. exact sim_world_H. Qed.
Print Assumptions C57_sim_world_H.
Theorem C57_sim_world_linear : forall a b x y,
  simE_to_worldE (a * x + b * y) = a * simE_to_worldE x + b * simE_to_worldE y /\
  worldE_to_simE (a * x + b * y) = a * worldE_to_simE x + b * worldE_to_simE y /\
  simH_to_worldH (a * x + b * y) = a * simH_to_worldH x + b * simH_to_worldH y /\
  worldH_to_simH (a * x + b * y) = a * worldH_to_simH x + b * worldH_to_simH y.
Proof. exact sim_world_linear. Qed.
Print Assumptions C57_sim_world_linear.
