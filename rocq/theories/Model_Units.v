(** Unit conversions and target frequencies. *)
From Coq Require Import Reals ZArith String List Bool.
From Verif Require Import Base.
Import ListNotations.
Open Scope R_scope.

(** nidn/utils/global_constants.py:14 [UNIT_MAGNITUDE = 10 ** (-6)] *)
Definition UNIT_MAGNITUDE : R := / 1000000.
(** global_constants.py:12 *)
Definition SPEED_OF_LIGHT : R := 299792458.
(** global_constants.py:8 [EPS_0 = 8.8541878128 * 10 ** (-12)] *)
Definition EPS_0 : R := 88541878128 / 10000000000 * / (10 ^ 12).
(** global_constants.py:10,16 [MU_0 = 4e-7 * PI]; the 32-bit PI tensor is
    idealised to the real number pi. *)
Definition MU_0 : R := 4 / 10000000 * PI.
(** global_constants.py:18 *)
Definition ETA_0 : R := MU_0 * SPEED_OF_LIGHT.

(** nidn/utils/convert_units.py:4-14.  Division by zero (a Python
    ZeroDivisionError, or inf for arrays) is not represented: Coq's [/ 0] is
    some unspecified real, so every theorem asks for a non-zero argument. *)
Definition freq_to_wl (freq : R) : R := 1 / freq.
(** convert_units.py:17-26 *)
Definition phys_wl_to_wl (phys_wl : R) : R := phys_wl / UNIT_MAGNITUDE.
(** convert_units.py:29-38 *)
Definition wl_to_phys_wl (wl : R) : R := wl * UNIT_MAGNITUDE.
(** convert_units.py:41-51 *)
Definition phys_freq_to_phys_wl (freq : R) : R := SPEED_OF_LIGHT / freq.

(** nidn/fdtd/conversions.py:32-45 *)
Definition simE_to_worldE (x : R) : R := x / sqrt EPS_0.
Definition worldE_to_simE (x : R) : R := sqrt EPS_0 * x.
Definition simH_to_worldH (x : R) : R := x / sqrt MU_0.
Definition worldH_to_simH (x : R) : R := sqrt MU_0 * x.

(** [numpy.log10]; only meaningful for positive arguments. *)
Definition log10 (x : R) : R := ln x / ln 10.
(** [numpy.logspace(a, b, num=n, base=10)] *)
Definition logspace10 (a b : R) (n : nat) : list R :=
  map (fun e => Rpower 10 e) (linspace a b n).

(** nidn/trcwa/compute_target_frequencies.py:6-40.  [N_freq] is a natural
    number (a negative one makes numpy raise ValueError, not modelled). *)
Definition compute_target_frequencies
    (min_physical_wl max_physical_wl : R) (N_freq : nat) (distribution : string)
    : res (list R) :=
  let max_physical_freq := freq_to_wl (phys_wl_to_wl min_physical_wl) in
  let min_physical_freq := freq_to_wl (phys_wl_to_wl max_physical_wl) in
  let logval_min := log10 min_physical_freq in
  let logval_max := log10 max_physical_freq in
  let! target_frequencies :=
    if String.eqb distribution "linear" then
      Ok (linspace min_physical_freq max_physical_freq N_freq)
    else if String.eqb distribution "log" then
      Ok (logspace10 logval_min logval_max N_freq)
    else Err ValueError in
  Ok (Rsort target_frequencies).

(** nidn/trcwa/get_frequency_points.py:6-29.  The second component is also
    what is stored in [run_cfg.target_frequencies] (line 20). *)
Definition get_frequency_points
    (wl_min wl_max : R) (N_freq : nat) (freq_distribution : string)
    : res (list R * list R) :=
  let! target_frequencies :=
    compute_target_frequencies wl_min wl_max N_freq freq_distribution in
  Ok (map (fun f => wl_to_phys_wl (freq_to_wl f)) target_frequencies,
      target_frequencies).
