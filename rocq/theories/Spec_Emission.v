(** What a placed source should emit. *)
From Coq Require Import Reals ZArith String List Bool Lra Lia.
From Verif Require Import Base Model_Units Model_FDTD Model_Register.
Import ListNotations.
Open Scope R_scope.

(** The signal of unit amplitude at step [q] of a source with period T (seconds)
    on a grid with time step dt, spacing dx and Courant number co:
    - continuous: a sine with T rounded to whole steps (an int is a number of
      steps), shifted by the phase;
    - hanning: with t = q times the pulse's own step (T/2 unless given), a sine
      of angular frequency 1/T under a raised cosine [cycle] times as slow, cut
      off when the envelope has completed one period;
    - ricker: a Mexican-hat pulse centred one wavelength after the start and cut
      off after six, wavelengths counted in cells. *)
Definition waveform (dt dx co : R) (s : source_args) (q : nat) : R :=
  let T := pynum_R (s_period s) in
  match s_signal s with
  | SContinuous => sin (2 * PI * (INR q / IZR (handle_time dt (s_period s))) + s_phase s)
  | SHanning =>
      let u := match s_hanning_dt s with Some d => d / T | None => 1 / 2 end in
      if (Z.of_nat q <? Rtrunc (2 * PI * s_cycle s / u))%Z
      then (1 - cos (INR q * u / s_cycle s)) / 2 * sin (INR q * u) else 0
  | SRicker =>
      let cells := SPEED_OF_LIGHT * T / dx in
      let v := (PI * (INR q * co / cells - 1)) ^ 2 in
      if Rltb (INR q) (6 * cells) then (1 - 2 * v) * exp (- v) else 0
  end.

(** The arguments for which the signal is defined. *)
Definition signal_ok (dt : R) (s : source_args) : Prop :=
  match s_signal s with
  | SContinuous => handle_time dt (s_period s) <> 0%Z
  | SHanning => pynum_R (s_period s) <> 0 /\ s_cycle s <> 0 /\ s_hanning_dt s <> Some 0
  | SRicker => pynum_R (s_period s) <> 0
  end.

(** The share of cell [j] of a line of [n] cells before normalisation: a flat-
    topped bell around the middle cell. *)
Definition bell (n j : nat) : R := exp (- 2 * ((INR j - INR (n / 2)) / INR (n / 2)) ^ 4).

(** The neighbour one cell lower along an axis (the last cell below the first
    one), and the circulation of H around the edges of a cell: the current
    through it. *)
Definition before (N : shape3) (a : axis) (p : pos) : pos :=
  setc a (if (coord a p =? 0)%nat then N a - 1 else coord a p - 1)%nat p.
Definition circulation (N : shape3) (dx : R) (H : field) (p : pos) : R :=
  dx * (H (before N AY p) AX - H p AX + H p AY - H (before N AX p) AY).
