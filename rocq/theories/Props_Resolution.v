(** Property theorems C105: which wavelengths the FDTD simulation can tell apart.  The words
    used in the statements ([step_length], [period_steps], [same_period], [alike_slices],
    [lossless], [window_of]) are defined in Spec_Resolution.v. *)
From Coq Require Import Reals ZArith String List Bool Lra Lia.
From Verif Require Import Base PyVal Spec_Config Model_Units Model_Coeffs Model_FDTD Model_Register Spec_FDTD Spec_Register Model_Layout Spec_Layout Spec_Harmonic Spec_Slab Spec_Resolution Proof_Harmonic7 Proof_Resolution.
Import ListNotations.
Open Scope R_scope.

(** C105: with a continuous source a simulation depends on the wavelength only through the
    number of time steps per period and the conductivities. *)
Theorem C105_same_simulation : forall c wl1 wl2 o1 o2, proper c -> 1 <= f_scaling c * f_pml c -> 0 < wl1 -> 0 < wl2 -> f_pulse c = "continuous"%string -> same_period c wl1 wl2 ->
  match o1, o2 with Some s1, Some s2 => alike_slices wl1 wl2 s1 s2 | None, None => True | _, _ => False end ->
  simulate c o1 wl1 = simulate c o2 wl2.
Proof. exact same_simulation. Qed.
Print Assumptions C105_same_simulation.
(** So two wavelengths with the same number of steps and the same steady-state window have
    the same transmission and reflection, *)
Theorem C105_same_entry : forall c wl1 wl2 s1 s2 w, proper c -> 1 <= f_scaling c * f_pml c -> 0 < wl1 -> 0 < wl2 -> f_pulse c = "continuous"%string -> same_period c wl1 wl2 ->
  window_of c wl1 w -> window_of c wl2 w -> alike_slices wl1 wl2 s1 s2 -> one_wavelength c wl1 s1 = one_wavelength c wl2 s2.
Proof. exact same_entry. Qed.
Print Assumptions C105_same_entry.
(** in particular if no layer absorbs, *)
Theorem C105_same_entry_lossless : forall c wl1 wl2 s w, proper c -> 1 <= f_scaling c * f_pml c -> 0 < wl1 -> 0 < wl2 -> f_pulse c = "continuous"%string -> same_period c wl1 wl2 ->
  window_of c wl1 w -> window_of c wl2 w -> lossless s -> one_wavelength c wl1 s = one_wavelength c wl2 s.
Proof. exact same_entry_lossless. Qed.
Print Assumptions C105_same_entry_lossless.
(** and the same entries in the spectrum. *)
Theorem C105_same_entries : forall eps c r t c' wls f i j wl1 wl2 s1 s2 w, compute_spectrum_fdtd eps c = Ok (r, t, c') -> prepare_fdtd c = Ok (c', wls) -> read_fdtd c' = Ok f ->
  proper f -> 1 <= f_scaling f * f_pml f -> f_pulse f = "continuous"%string ->
  nth_error wls i = Some wl1 -> nth_error wls j = Some wl2 -> nth_error eps i = Some s1 -> nth_error eps j = Some s2 -> 0 < wl1 -> 0 < wl2 ->
  same_period f wl1 wl2 -> window_of f wl1 w -> window_of f wl2 w -> alike_slices wl1 wl2 s1 s2 ->
  nth_error t i = nth_error t j /\ nth_error r i = nth_error r j.
Proof. exact same_entries. Qed.
Print Assumptions C105_same_entries.
(** Every wavelength has exactly one number of steps; what is simulated is at most half a step
    length away from what was asked for, and wavelengths a step length or more apart are told
    apart. *)
Theorem C105_every_wavelength : forall c wl, exists T, period_steps c wl T /\ forall T', period_steps c wl T' -> T' = T.
Proof. exact every_wavelength. Qed.
Print Assumptions C105_every_wavelength.
Theorem C105_shift : forall c wl T, proper c -> 0 < wl -> period_steps c wl T -> Rabs (IZR T * step_length c - wl) <= step_length c / 2.
Proof. exact shift. Qed.
Print Assumptions C105_shift.
Theorem C105_apart : forall c wl1 wl2, proper c -> same_period c wl1 wl2 -> Rabs (wl1 - wl2) < step_length c.
Proof. exact apart. Qed.
Print Assumptions C105_apart.
(** With ten columns per micrometre 1 and 1.01 micrometres are the same light, 1 and 1.08
    micrometres are not. *)
Example C105_case : same_period stack_cfg (100 / 10 ^ 8) (101 / 10 ^ 8) /\ window_of stack_cfg (100 / 10 ^ 8) 30 /\ window_of stack_cfg (101 / 10 ^ 8) 30
  /\ lossless glass_slice /\ f_pulse stack_cfg = "continuous"%string.
Proof. exact resolution_case. Qed.
Example C105_proper_case : proper stack_cfg /\ 1 <= f_scaling stack_cfg * f_pml stack_cfg /\ ~ same_period stack_cfg (100 / 10 ^ 8) (108 / 10 ^ 8).
Proof. split; [exact (proj1 stack_facts)|]. split; [cbn; lra|exact resolution_apart]. Qed.
Example C105_same_light : one_wavelength stack_cfg (100 / 10 ^ 8) glass_slice = one_wavelength stack_cfg (101 / 10 ^ 8) glass_slice.
Proof.
  destruct resolution_case as (A & B & C & D & E). apply (C105_same_entry_lossless _ _ _ _ 30); try assumption; try lra; [exact (proj1 stack_facts)|cbn; lra].
Qed.
