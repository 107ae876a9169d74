(** nidn/fdtd/waveforms.py 31-53: Gaussian pulses ("waveforms").

    Simplification: the arguments are Python numbers. For an array [x] the first
    function gives the values entry by entry (and infinities or NaN instead of
    ZeroDivisionError), the second raises TypeError ([math.exp]). *)
From Coq Require Import Reals.
From Verif Require Import Base.
Open Scope R_scope.

(** waveforms 31 *)
Definition fwhm_constant : R := 2 * sqrt (2 * ln 2).
(** waveforms 34-46: [normalized_gaussian_pulse] *)
Definition gaussian_pulse (x fwhm center : R) : res R :=
  let sigma := fwhm / fwhm_constant in
  if Reqb (2 * sigma ^ 2) 0 then Err ZeroDivisionError
  else Ok (exp (- ((x - center) ^ 2 / (2 * sigma ^ 2)))).
(** waveforms 49-53: [normalized_gaussian_derivative_pulse] *)
Definition gaussian_derivative_pulse (x fwhm center : R) : res R :=
  let sigma := fwhm / fwhm_constant in
  if Reqb (2 * sigma ^ 2) 0 then Err ZeroDivisionError
  else Ok (exp (1 / 2 - (x - center) ^ 2 / (2 * sigma ^ 2)) * (x - center) / sigma).
