(** Vocabulary for C105: which wavelengths the FDTD simulation can tell apart. *)
From Coq Require Import Reals ZArith List.
From Verif Require Import Base Model_Units Model_Layout.
Import ListNotations.
Open Scope R_scope.

(** The way light goes in one time step: 0.99 / sqrt 2 of a cell. *)
Definition step_length (c : fdtd_cfg) : R := 99 / 100 / sqrt 2 * (UNIT_MAGNITUDE / f_scaling c).
(** The source repeats itself after [T] time steps: the wavelength in units of that length,
    rounded to the nearest integer. *)
Definition period_steps (c : fdtd_cfg) (wl : R) (T : Z) : Prop := IZR T <= wl / step_length c + / 2 < IZR T + 1.
Definition same_period (c : fdtd_cfg) (wl1 wl2 : R) : Prop := exists T, period_steps c wl1 T /\ period_steps c wl2 T.

(** Permittivities with the same real part and the same conductivity (imaginary part times
    frequency) at two wavelengths. *)
Definition alike (wl1 wl2 : R) (e1 e2 : R * R) : Prop := fst e1 = fst e2 /\ snd e1 / wl1 = snd e2 / wl2.
Definition alike_slices (wl1 wl2 : R) (s1 s2 : eps_slice) : Prop := Forall2 (Forall2 (Forall2 (alike wl1 wl2))) s1 s2.
(** Permittivities without imaginary part. *)
Definition lossless (s : eps_slice) : Prop := forall row cell e, In row s -> In cell row -> In e cell -> snd e = 0.

(** The steady-state window for a wavelength. *)
Definition window_of (c : fdtd_cfg) (wl : R) (w : Z) : Prop := IZR w <= 3 * INR (f_min_gp c) * (wl / UNIT_MAGNITUDE) < IZR w + 1.
