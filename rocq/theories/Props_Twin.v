(** Property theorems C111: the two polarizations of a grid one cell thick along an axis.
    [part], [same_polarization], [same_part_detector], [dark_polarization] and [drives_z] are defined in Spec_Twin.v. *)
From Coq Require Import Reals ZArith List Bool Lra Lia.
From Verif Require Import Base Model_FDTD Spec_FDTD Spec_Twin Proof_Twin2 Proof_Twin3.
Import ListNotations.
Open Scope R_scope.

(** In a grid one cell thick along an axis, E along this axis and H across it evolve as if the
    other components did not exist, and E across it and H along it likewise: two grids that agree in one polarization,
    in the material it sees, in the sources, and in the coefficients and memory of the
    boundaries, agree in it after any number of steps, whatever the other polarization. *)
Theorem C111_polarizations : forall a z n g1 g2 g1' g2', same_polarization a z g1 g2 -> run_steps n g1 = Ok g1' -> run_steps n g2 = Ok g2' ->
  forall p, in_grid (g_N g1) p -> (forall c, part a z c -> g_E g1' p c = g_E g2' p c) /\ (forall c, part a (negb z) c -> g_H g1' p c = g_H g2' p c).
Proof. exact polarizations. Qed.
Print Assumptions C111_polarizations.
(** Two periodic grids with a point source that differ in E_x, in H_z and in the permittivity along x. *)
Example C111_polarizations_case : forall n, exists g1 g2, run_steps n (flat_grid 3 5 (/ 3)) = Ok g1 /\ run_steps n (flat_grid 7 0 1) = Ok g2
  /\ g_E g1 (2, 1, 0)%nat AZ = g_E g2 (2, 1, 0)%nat AZ /\ g_H g1 (2, 1, 0)%nat AX = g_H g2 (2, 1, 0)%nat AX.
Proof. exact flat_case. Qed.

(** With detectors at the same cells one grid runs if the other does, and the field detectors record
    the same values of this polarization; so do current detectors in a grid flat along z, for E along z. *)
Theorem C111_detectors : forall a z n g1 g2 g1', same_polarization a z g1 g2 -> g_spacing g1 = g_spacing g2 -> Forall2 (same_part_detector a z) (g_detectors g1) (g_detectors g2) ->
  run_steps n g1 = Ok g1' -> exists g2', run_steps n g2 = Ok g2' /\ Forall2 (same_part_detector a z) (g_detectors g1') (g_detectors g2').
Proof. exact detectors_agree. Qed.
Print Assumptions C111_detectors.
(** The grids of the first case between two PMLs. *)
Example C111_detectors_case : forall n, exists g1 g2, run_steps n (watched_grid 3 5 (/ 3)) = Ok g1 /\ run_steps n (watched_grid 7 0 1) = Ok g2
  /\ Forall2 (same_part_detector AZ true) (g_detectors g1) (g_detectors g2).
Proof. exact watched_case. Qed.

(** Without PMLs, a dark polarization that no source drives stays dark: point and line sources
    light only the polarization that contains E_z; without sources this holds for both. *)
Theorem C111_dark : forall a z n g g', g_N g a = 1%nat -> no_pml (g_boundaries g) -> (~ part a z AZ /\ Forall drives_z (g_sources g)) \/ g_sources g = [] ->
  dark_polarization a z g -> run_steps n g = Ok g' -> dark_polarization a z g'.
Proof. exact dark_run. Qed.
Print Assumptions C111_dark.
Example C111_dark_case : forall n i, exists g, run_steps n (flat_grid 0 0 i) = Ok g /\ g_E g (2, 1, 0)%nat AX = 0 /\ g_H g (2, 1, 0)%nat AZ = 0.
Proof. exact dark_case. Qed.
(** With a PML it does not hold, for neither polarization (it adds a constant to all components). *)
Theorem C111_dark_pml_refuted : forall z, exists g g', g_N g AZ = 1%nat /\ g_sources g = [] /\ dark_polarization AZ z g /\ step g = Ok g' /\ ~ dark_polarization AZ z g'.
Proof. exact dark_pml_fails. Qed.
Print Assumptions C111_dark_pml_refuted.
