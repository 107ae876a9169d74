(** Property theorems C100: plane waves on the grid of the FDTD simulation.  The
    words used in the statements ([E_wave], [H_wave], [grid_vector], [dot],
    [cross], [deep], [bare]) are defined in Spec_Wave.v. *)
From Coq Require Import Reals ZArith String List Bool Lra Lia.
From Verif Require Import Base PyVal Spec_Config Model_Config Model_Units Model_FDTD Model_Register Spec_FDTD Model_Layout Spec_Layout Spec_Wave
  Proof_Wave Proof_Wave2 Proof_Wave3.
Import ListNotations.
Open Scope R_scope.

(** In any direction and polarisation: a transversal wave that satisfies the
    dispersion relation of the grid stays that wave for ever, in all cells the ends
    of the grid cannot have influenced. *)
Theorem C100_plane_wave : forall (k : axis -> R) w phi eps mu (e : axis -> R) n g g', bare g eps mu -> 0 < eps -> 0 < mu -> sin (w / 2) <> 0 ->
  dot (grid_vector k) e = 0 -> sin (w / 2) ^ 2 = g_courant g ^ 2 / (eps * mu) * dot (grid_vector k) (grid_vector k) ->
  let h := fun c => g_courant g / (mu * sin (w / 2)) * cross (grid_vector k) e c in
  (forall p c, in_grid (g_N g) p -> g_E g p c = E_wave k w phi e 0 p c /\ g_H g p c = H_wave k w phi h 0 p c) ->
  run_steps n g = Ok g' ->
  forall p c, deep k (g_N g) n p -> g_E g' p c = E_wave k w phi e n p c /\ g_H g' p c = H_wave k w phi h n p c.
Proof. exact plane_wave. Qed.
Print Assumptions C100_plane_wave.
Example C100_case : exists g0 w, make_grid [PInt 101; PInt 1; PInt 1] (/ 10 ^ 7) 1 1 None = Ok g0 /\ 0 < g_courant g0
  /\ let k := along_x (2 * PI / 20) in
     let h := fun c => g_courant g0 / (1 * sin (w / 2)) * cross (grid_vector k) along_z c in
     let g := with_fields g0 (E_wave k w 0 along_z 0) (H_wave k w 0 h 0) 0 [] [] in
     bare g 1 1 /\ sin (w / 2) <> 0 /\ dot (grid_vector k) along_z = 0
     /\ sin (w / 2) ^ 2 = g_courant g ^ 2 / (1 * 1) * dot (grid_vector k) (grid_vector k)
     /\ (exists g', run_steps 40 g = Ok g') /\ deep k (g_N g) 40 (50, 0, 0)%nat.
Proof. exact wave_case. Qed.

(** Along an axis a wave of [M] cells travels at most at the speed of light in the
    material, and at most (2 pi / M)^2 / 24 of it slower; with ten cells at 98.3 % of
    it or more. *)
Theorem C100_speed : forall shape sp eps mu co g M, make_grid shape sp eps mu co = Ok g -> 0 < sp -> 0 < g_courant g -> 1 <= eps * mu -> 2 <= M ->
  exists w, 0 < w <= PI /\ sin (w / 2) = g_courant g / sqrt (eps * mu) * sin (PI / M)
    /\ let v := (w / g_time_step g) / (2 * PI / (M * g_spacing g)) in
       (1 - (2 * PI / M) ^ 2 / 24) * (SPEED_OF_LIGHT / sqrt (eps * mu)) <= v <= SPEED_OF_LIGHT / sqrt (eps * mu)
       /\ (10 <= M -> 983 / 1000 * (SPEED_OF_LIGHT / sqrt (eps * mu)) <= v).
Proof. exact speed. Qed.
Print Assumptions C100_speed.

(** An accepted config has at least ten cells per wavelength in vacuum, for all its
    wavelengths. *)
Theorem C100_ten_cells : forall c w T w0 w1 p sx sy, validate_config c = Ok w -> fdtd_numbers c T w0 w1 p sx sy ->
  exists c' wls f, prepare_fdtd c = Ok (c', wls) /\ read_fdtd c' = Ok f
    /\ forall wl, In wl wls -> 10 <= wl / (UNIT_MAGNITUDE / f_scaling f).
Proof. exact ten_cells. Qed.
Print Assumptions C100_ten_cells.
