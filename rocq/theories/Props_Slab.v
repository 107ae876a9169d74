(** Property theorems C103: the FDTD simulation and the transfer-matrix code agree about
    layers without loss.  The words used in the statements are defined in Spec_Slab.v
    ([grid_phase], [grid_index], [grid_thickness], [filled], [slab_indices], ...),
    Spec_Harmonic.v ([scattered], [oscillates], [free_columns], [waves], ...) and Spec_TMM.v
    ([inverts_sine], [principal]: what the arcsin of numpy does). *)
From Coq Require Import Reals ZArith String List Bool Lra Lia.
From Verif Require Import Base Cplx PyVal Spec_Config Model_Units Model_Coeffs Model_FDTD Model_Register Spec_FDTD Spec_Register Model_Layout Spec_Layout Model_TMM Spec_TMM Spec_Harmonic Spec_Slab
  Proof_Slab Proof_Slab2.
Import ListNotations.
Open Scope R_scope.

(** C103: what the simulation grid reflects and transmits of a wave of one frequency is what
    the transfer-matrix code computes, at normal incidence, for a slab of the grid's indices
    and thicknesses. *)
Theorem C103_agrees : forall arcsin co w k a b layers eps sig A r t, inverts_sine arcsin -> principal arcsin ->
  0 < co -> 0 < k < PI -> sin (w / 2) = co * sin (k / 2) ->
  (forall q, In q layers -> 0 < fst q /\ sqrt (fst q) * sin (k / 2) < 1) ->
  stands_between eps sig a b -> (forall x, sig x = 0) -> (2 <= a <= b)%nat ->
  (b + 1 = start a layers (length layers))%nat -> filled eps a layers -> scattered co w k eps sig a b A r t ->
  exists D, coh_tmm arcsin "s"%string (slab_indices k layers) (slab_thicknesses k layers) C0 (2 * PI / k) = Ok D
    /\ c_r D = (r * Cis (- (k * (2 * INR a - 1))))%C /\ c_t D = (t * Cis (k * INR (b + 1 - a)))%C
    /\ c_R D = Cnorm2 r /\ c_T D = Cnorm2 t.
Proof. exact agree. Qed.
Print Assumptions C103_agrees.
(** So in a simulation that has settled, with nothing coming in from the right, the reflected
    and the transmitted power are the incident power times the R and T of that computation. *)
Theorem C103_settled : forall arcsin eps sig w k A g g1 g2 lo hi n a b layers, inverts_sine arcsin -> principal arcsin ->
  free_columns g eps sig lo hi -> 0 < g_courant g -> (0 < g_N g AY)%nat -> (0 < g_N g AZ)%nat ->
  0 < k < PI -> 0 < w < PI -> sin (w / 2) = g_courant g * sin (k / 2) ->
  stands_between eps sig a b -> (forall x, sig x = 0) -> (lo + 2 <= a <= b)%nat -> (b + 2 <= hi)%nat ->
  filled eps a layers -> (b + 1 = start a layers (length layers))%nat ->
  (forall q, In q layers -> 0 < fst q /\ sqrt (fst q) * sin (k / 2) < 1) ->
  step g = Ok g1 -> step g1 = Ok g2 -> oscillates w A g n lo hi -> oscillates w A g1 (S n) lo hi -> oscillates w A g2 (S (S n)) lo hi ->
  exists D, coh_tmm arcsin "s"%string (slab_indices k layers) (slab_thicknesses k layers) C0 (2 * PI / k) = Ok D
    /\ exists u v t s, (forall x, (lo <= x <= a)%nat -> A x = waves k u v x) /\ (forall x, (b <= x <= hi)%nat -> A x = waves k t s x)
    /\ (s = C0 -> v = (u * (c_r D * Cis (k * (2 * INR a - 1))))%C /\ t = (u * (c_t D * Cis (- (k * INR (b + 1 - a)))))%C
         /\ Cnorm2 v = c_R D * Cnorm2 u /\ Cnorm2 t = c_T D * Cnorm2 u).
Proof. exact settled_slab. Qed.
Print Assumptions C103_settled.
(** The simulations NIDN sets up for a permittivity without loss have such columns: the
    layers stand side by side, without gap, and no column absorbs. *)
Theorem C103_simulation : forall c slice wl row layers g s0, proper c -> 1 <= f_scaling c * f_pml c -> known_kinds c -> 0 < wl ->
  f_thick c <> [] -> get slice 0 = Ok row -> get row 0 = Ok layers -> layers <> [] ->
  (forall e, In e layers -> 0 < fst e /\ snd e = 0) ->
  Rtrunc (f_src_x c * f_scaling c) = Z.of_nat s0 -> (pml_columns c <= S s0)%nat ->
  init_fdtd c (Some slice) wl = Ok g ->
  exists eps sig, free_columns g eps sig (S s0) (columns c - pml_columns c - 1)
    /\ stands_between eps sig (edge c 0) (edge c (length layers) - 1)
    /\ (forall x, sig x = 0) /\ filled eps (edge c 0) (layer_cells c layers)
    /\ start (edge c 0) (layer_cells c layers) (length (layer_cells c layers)) = edge c (length layers).
Proof. exact simulated. Qed.
Print Assumptions C103_simulation.
(** The grid's phase per column, and how far its index, its thickness and its wavelength are
    from those of the material; all three go away with the columns per wavelength. *)
Theorem C103_phase : forall k e, 0 < k < PI -> 0 < e -> sqrt e * sin (k / 2) < 1 ->
  0 < grid_phase k e < PI /\ sin (grid_phase k e / 2) = sqrt e * sin (k / 2) /\ 0 < sin (grid_phase k e / 2) /\ 0 < cos (grid_phase k e / 2).
Proof. exact grid_phase_spec. Qed.
Print Assumptions C103_phase.
Theorem C103_index : forall k e, 0 < k < PI -> 1 <= e -> sqrt e * sin (k / 2) < 1 ->
  sqrt e <= grid_index k e <= sqrt e / cos (grid_phase k e / 2).
Proof. exact index_close. Qed.
Print Assumptions C103_index.
Theorem C103_thickness : forall k e L, 0 < k < PI -> 1 <= e -> sqrt e * sin (k / 2) < 1 ->
  cos (grid_phase k e / 2) * INR L <= grid_thickness k e L <= INR L / cos (k / 2).
Proof. exact thickness_close. Qed.
Print Assumptions C103_thickness.
(** [y] is pi times the spacing of the columns over the wavelength; light of that wavelength
    turns by 2 courant [y] in a time step. *)
Theorem C103_wavelength : forall co k w y, 0 < co -> 0 < k < PI -> 0 < co * y <= PI -> w = 2 * (co * y) -> sin (w / 2) = co * sin (k / 2) ->
  y * cos (co * y) <= k / 2 <= y / cos (k / 2).
Proof. exact wavelength_close. Qed.
Print Assumptions C103_wavelength.

(** A simulation of two layers without loss in which such a wave goes on. *)
Example C103_case : exists g0 g g1 g2 eps sig w A r t,
  init_fdtd stack_cfg (Some glass_slice) (1 / 1000000) = Ok g0
  /\ g = with_fields g0 (E_osc w A 0) (H_osc (g_courant g0) w A 0) 0 (g_boundaries g0) (g_detectors g0)
  /\ free_columns g eps sig 18 52 /\ stands_between eps sig 25 44 /\ (forall x, sig x = 0) /\ filled eps 25 glass_cells
  /\ (44 + 1 = start 25 glass_cells (length glass_cells))%nat
  /\ (forall q, In q glass_cells -> 1 <= fst q /\ sqrt (fst q) * sin (PI / 20 / 2) < 1)
  /\ 0 < g_courant g /\ (0 < g_N g AY)%nat /\ (0 < g_N g AZ)%nat /\ 0 < w < PI /\ sin (w / 2) = g_courant g * sin (PI / 20 / 2)
  /\ scattered (g_courant g) w (PI / 20) eps sig 25 44 A r t
  /\ step g = Ok g1 /\ step g1 = Ok g2 /\ oscillates w A g 0 18 52 /\ oscillates w A g1 1 18 52 /\ oscillates w A g2 2 18 52.
Proof. exact glass_case. Qed.
Example C103_wavelength_case : exists k w, 0 < k < PI /\ 0 < / 2 * (1 / 10) <= PI /\ w = 2 * (/ 2 * (1 / 10)) /\ sin (w / 2) = / 2 * sin (k / 2).
Proof.
  pose proof PI_RGT_0 as P. pose proof PI2_1 as P2. assert (S1 : sin (1 / 20) < 1 / 20) by (apply sin_lt_x; lra). assert (S0 : 0 < sin (1 / 20)) by (apply sin_gt_0; lra).
  destruct (Proof_Harmonic7.solve_sine (2 * sin (1 / 20))) as (k & K & D); [lra|]. exists k, (2 * (/ 2 * (1 / 10))).
  split; [exact K|]. split; [lra|]. split; [reflexivity|]. rewrite D. replace (2 * (/ 2 * (1 / 10)) / 2) with (1 / 20) by field. field.
Qed.
