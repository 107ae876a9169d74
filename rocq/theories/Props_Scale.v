(** Property theorems C110: only ratios of lengths matter.  [enlarged] is defined in
    Spec_Scale.v, [window_of] in Spec_Resolution.v, the words about the layout in
    Spec_Layout.v. *)
From Coq Require Import Reals ZArith String List Bool Lra Lia.
From Verif Require Import Base PyVal Spec_Config Model_Units Model_Coeffs Model_FDTD Model_Register Spec_FDTD Spec_Register Model_Layout Spec_Layout
  Spec_Harmonic Spec_Resolution Spec_Scale Proof_Scale.
Import ListNotations.
Open Scope R_scope.

(** A layout [k] times as large, with [k] times fewer columns per micrometre and a wavelength
    [k] times as long, gives the same signals, with and without the stack, whatever the
    permittivities, absorbing or not.  (A Hanning pulse has a fixed duration.) *)
Theorem C110_signals : forall k c wl (obj : option eps_slice), 0 < k -> proper c -> 1 <= f_scaling c * f_pml c -> known_kinds c -> f_pulse c <> "hanning"%string -> usable_source c -> f_thick c <> [] ->
  UNIT_MAGNITUDE <= wl * f_scaling c ->
  (obj = None \/ exists slice row layers, obj = Some slice /\ get slice 0 = Ok row /\ get row 0 = Ok layers /\ layers <> [] /\ (length layers <= length (f_thick c))%nat) ->
  exists t r, simulate c obj wl = Ok (t, r) /\ simulate (enlarged k c) obj (k * wl) = Ok (t, r).
Proof. exact simulate_scaled. Qed.
Print Assumptions C110_signals.
(** A stack, and one ten times as large. *)
Example C110_signals_case : exists t r, simulate stack_cfg (Some stack_slice) (1 / 1000000) = Ok (t, r) /\ simulate (enlarged 10 stack_cfg) (Some stack_slice) (10 * (1 / 1000000)) = Ok (t, r)
  /\ length t = 400%nat.
Proof. exact ten_case. Qed.

(** The entry of the spectrum is the same if the steady-state window has as many samples, *)
Theorem C110_entry : forall k c wl (s : eps_slice) row l w, 0 < k -> proper c -> 1 <= f_scaling c * f_pml c -> known_kinds c -> f_pulse c <> "hanning"%string -> usable_source c -> f_thick c <> [] ->
  UNIT_MAGNITUDE <= wl * f_scaling c -> get s 0 = Ok row -> get row 0 = Ok l -> l <> [] -> (length l <= length (f_thick c))%nat ->
  (exists e, In e (concat (concat s)) /\ 0 <= fst e) -> window_of c wl w -> window_of c (k * wl) w ->
  one_wavelength (enlarged k c) (k * wl) s = one_wavelength c wl s.
Proof. exact entry_scaled. Qed.
Print Assumptions C110_entry.
Example C110_entry_case : one_wavelength (enlarged (101 / 100) stack_cfg) (101 / 100 * (1 / 1000000)) stack_slice = one_wavelength stack_cfg (1 / 1000000) stack_slice.
Proof. exact percent_case. Qed.
(** which it need not: it is a number of samples per micrometre of wavelength, not per period. *)
Example C110_window_case : window_of stack_cfg (1 / 1000000) 30 /\ window_of (enlarged 10 stack_cfg) (10 * (1 / 1000000)) 300.
Proof. exact window_case. Qed.
