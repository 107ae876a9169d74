(** Vocabulary for stating the properties of soft sources. *)
From Coq Require Import Reals ZArith String List Bool.
From Verif Require Import Base Model_FDTD Model_Register Model_Soft Spec_FDTD.
Import ListNotations.
Open Scope R_scope.

(** The waveform, 0 after its end. *)
Definition voltage_at (wave : list R) (t : nat) : R := nth t wave 0.

(** What a soft source contributes to E_z in cell [p] at its last step. *)
Definition sits_at (N : shape3) (s : soft_source) (p : pos) : bool :=
  match so_cell s with
  | Some c => match resolve3 N c with Ok p' => pos_eqb p' p | Err _ => false end
  | None => false
  end.
Definition contribution (g : grid) (p : pos) (s : soft_source) : R :=
  if sits_at (g_N g) s p then last (so_out s) 0 / g_spacing g else 0.

(** The last reading of the current detector of a soft source. *)
Definition last_reading (g : grid) (s : soft_source) (i : R) : Prop :=
  exists d cells Is more, so_det s = Some d
  /\ nth_error (g_detectors g) d = Some (CurrentDetector cells (Is ++ [i :: more])).

(** The same but for the recorded voltages. *)
Definition same_soft (s s' : soft_source) : Prop :=
  so_wave s' = so_wave s /\ so_impedance s' = so_impedance s
  /\ so_cell s' = so_cell s /\ so_det s' = so_det s.

(** The source voltage of each step is the input voltage, plus the impedance (if
    positive) times the reading of the step before. *)
Definition voltages_follow (imp : R) (ins outs Is : list R) : Prop :=
  length outs = length Is /\ length ins = length Is
  /\ forall t, (t < length Is)%nat ->
     nth t outs 0 = nth t ins 0
       + (if Rltb 0 imp then imp * (match t with O => 0 | S t' => nth t' Is 0 end) else 0).
