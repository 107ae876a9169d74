(** The same stack of uniform layers, given to the transfer-matrix code. *)
From Coq Require Import Reals List.
From mathcomp Require Import all_ssreflect.
From Verif Require Import Base PyVal Cplx Model_TRCWA.

(** Layers of indices [ns] between the outer media of the configuration.  A complex
    frequency f u is a real frequency f with all indices multiplied by [u]. *)
Definition tmm_indices (c : trcwa_cfg) (u : C) (ns : seq C) : seq C :=
  map (Cmul u) (RtoC (sqrt (t_top c)) :: ns ++ [:: RtoC (sqrt (t_bottom c))]).
(** Their thicknesses; the outer media have no end. *)
Definition tmm_depths (ds : seq R) : seq pyfloat := PInf :: map Fin ds ++ [:: PInf].

(** compute_spectrum_trcwa takes the frequency to be f (1 + i / (2 10^5)). *)
Definition damped : C := (1%R, (/ (2 * 10 ^ 5))%R).
