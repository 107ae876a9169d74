(** Property theorems C101 and C102: light of one frequency in the FDTD simulation.  The
    words used in the statements ([free_columns], [oscillates], [balanced],
    [stands_between], [scattered], [waves], [taken], [at_interface], ...) are defined in
    Spec_Harmonic.v, those about the layout in Spec_Layout.v. *)
From Coq Require Import Reals ZArith String List Bool Lra Lia.
From Verif Require Import Base Cplx PyVal Spec_Config Model_Units Model_Coeffs Model_FDTD Model_Register Spec_FDTD Spec_Register Model_Layout Spec_Layout Spec_Harmonic
  Proof_Harmonic2 Proof_Harmonic3 Proof_Harmonic4 Proof_Harmonic5 Proof_Harmonic6 Proof_Harmonic7.
Import ListNotations.
Open Scope R_scope.

(** C101: the simulations NIDN sets up have such columns, from behind the source to the
    right PML, with the permittivity and the conductivity of every layer. *)
Theorem C101_simulation : forall c slice wl row layers g s0, proper c -> 1 <= f_scaling c * f_pml c -> known_kinds c -> 0 < wl ->
  f_thick c <> [] -> get slice 0 = Ok row -> get row 0 = Ok layers -> layers <> [] ->
  (forall e, In e layers -> 0 < fst e /\ 0 <= snd e) ->
  Rtrunc (f_src_x c * f_scaling c) = Z.of_nat s0 -> (pml_columns c <= S s0)%nat ->
  init_fdtd c (Some slice) wl = Ok g ->
  exists eps sig, free_columns g eps sig (S s0) (columns c - pml_columns c - 1)
    /\ stands_between eps sig (edge c 0) (edge c (length layers) - 1)
    /\ (2 <= edge c 0)%nat
    /\ forall j x, (j < length layers)%nat -> (edge c j <= x < edge c (S j))%nat ->
        eps x = fst (nth j layers (0, 0))
        /\ sig x = / 2 * (99 / 100 / sqrt 2) * conductivity (nth j layers (0, 0)) wl * (UNIT_MAGNITUDE / f_scaling c) * ETA_0 / fst (nth j layers (0, 0)).
Proof. exact simulation. Qed.
Print Assumptions C101_simulation.
(** The time step: 99 % of what is stable in two dimensions, with or without object. *)
Theorem C101_time_step : forall c obj wl g, proper c -> 1 <= f_scaling c * f_pml c -> known_kinds c -> 0 < wl -> init_fdtd c obj wl = Ok g ->
  g_courant g = 99 / 100 / sqrt 2 /\ g_spacing g = UNIT_MAGNITUDE / f_scaling c /\ g_time_step g = g_courant g * g_spacing g / SPEED_OF_LIGHT.
Proof. exact init_time_step. Qed.
Print Assumptions C101_time_step.
(** An oscillation whose amplitudes are balanced goes on for ever, in all columns the
    surroundings cannot have influenced. *)
Theorem C101_oscillation : forall eps sig w A g g' lo hi n k, free_columns g eps sig lo hi -> sin (w / 2) <> 0 -> 0 < g_courant g ->
  (forall x, (lo <= x <= hi)%nat -> 0 < eps x /\ 0 <= sig x) ->
  (forall x, (lo < x < hi)%nat -> balanced (g_courant g) w eps sig A x) ->
  oscillates w A g n lo hi -> run_steps k g = Ok g' -> oscillates w A g' (n + k) (lo + k) (hi - k).
Proof. exact oscillation. Qed.
Print Assumptions C101_oscillation.
(** Conversely the amplitudes of a simulation that has settled are balanced. *)
Theorem C101_settled_is_balanced : forall eps sig w A g g1 g2 lo hi n, free_columns g eps sig lo hi -> sin w <> 0 -> 0 < g_courant g ->
  (forall x, (lo <= x <= hi)%nat -> 0 < eps x /\ 0 <= sig x) -> (0 < g_N g AY)%nat -> (0 < g_N g AZ)%nat ->
  step g = Ok g1 -> step g1 = Ok g2 -> oscillates w A g n lo hi -> oscillates w A g1 (S n) lo hi -> oscillates w A g2 (S (S n)) lo hi ->
  forall x, (lo < x < hi)%nat -> balanced (g_courant g) w eps sig A x.
Proof. exact steady. Qed.
Print Assumptions C101_settled_is_balanced.
(** So in a simulation that has settled there are two waves on either side of the material;
    what comes in is what goes out and what the columns take; and if nothing comes in from
    the right, the reflected and the transmitted parts of the incident wave are determined
    by the material alone. *)
Theorem C101_power_balance : forall eps sig w k A g g1 g2 lo hi n a b, free_columns g eps sig lo hi -> 0 < g_courant g -> (0 < g_N g AY)%nat -> (0 < g_N g AZ)%nat ->
  0 < k < PI -> 0 < w < PI -> sin (w / 2) = g_courant g * sin (k / 2) ->
  stands_between eps sig a b -> (lo + 2 <= a <= b)%nat -> (b + 2 <= hi)%nat ->
  step g = Ok g1 -> step g1 = Ok g2 -> oscillates w A g n lo hi -> oscillates w A g1 (S n) lo hi -> oscillates w A g2 (S (S n)) lo hi ->
  exists u v t s, (forall x, (lo <= x <= a)%nat -> A x = waves k u v x) /\ (forall x, (b <= x <= hi)%nat -> A x = waves k t s x)
    /\ Cnorm2 u + Cnorm2 s = Cnorm2 v + Cnorm2 t + Rsum (map (taken (g_courant g) w k eps sig A) (seq a (b + 1 - a)))
    /\ (s = C0 -> forall B r t', scattered (g_courant g) w k eps sig a b B r t' -> v = (u * r)%C /\ t = (u * t')%C).
Proof. exact power_balance. Qed.
Print Assumptions C101_power_balance.
(** These parts exist and are unique for every material without gain. *)
Theorem C101_scattered_exists : forall co w k eps sig a b, 0 < co -> 0 < k < PI -> 0 < w < PI -> sin (w / 2) = co * sin (k / 2) ->
  stands_between eps sig a b -> (2 <= a <= b)%nat -> exists A r t, scattered co w k eps sig a b A r t.
Proof. exact scattered_exists. Qed.
Print Assumptions C101_scattered_exists.
Theorem C101_scattered_unique : forall co w k eps sig a b, 0 < k < PI -> (2 <= a <= b)%nat ->
  forall A1 r1 t1 A2 r2 t2, scattered co w k eps sig a b A1 r1 t1 -> scattered co w k eps sig a b A2 r2 t2 ->
  r1 = r2 /\ t1 = t2 /\ forall x, A1 x = A2 x.
Proof. exact scattered_unique. Qed.
Print Assumptions C101_scattered_unique.
(** Reflected and transmitted power are at most the incident power, and equal to it if no
    layer absorbs. *)
Theorem C101_bounds : forall co w k eps sig a b A r t, 0 < co -> 0 < k < PI -> 0 < w < PI ->
  stands_between eps sig a b -> (2 <= a <= b)%nat -> scattered co w k eps sig a b A r t ->
  Cnorm2 r + Cnorm2 t <= 1 /\ ((forall x, sig x = 0) -> Cnorm2 r + Cnorm2 t = 1).
Proof. exact scattered_bounds. Qed.
Print Assumptions C101_bounds.
Example C101_layout_case : proper stack_cfg /\ known_kinds stack_cfg /\ 1 <= f_scaling stack_cfg * f_pml stack_cfg /\ columns stack_cfg = 70%nat /\ pml_columns stack_cfg = 15%nat
  /\ edge stack_cfg 0 = 25%nat /\ edge stack_cfg 2 = 45%nat /\ Rtrunc (f_src_x stack_cfg * f_scaling stack_cfg) = 15%Z.
Proof. destruct stack_facts as (A & B & _ & C). split; [exact A|]. split; [exact B|]. split; [cbn; lra|exact C]. Qed.
Example C101_case : exists g0 g g' g1 g2 eps sig w A r t,
  init_fdtd stack_cfg (Some stack_slice) (1 / 1000000) = Ok g0
  /\ g = with_fields g0 (E_osc w A 0) (H_osc (g_courant g0) w A 0) 0 (g_boundaries g0) (g_detectors g0)
  /\ free_columns g eps sig 18 52 /\ stands_between eps sig 25 44 /\ eps 25%nat = 4 /\ 0 < sig 40%nat
  /\ 0 < g_courant g /\ (0 < g_N g AY)%nat /\ (0 < g_N g AZ)%nat /\ 0 < w < PI /\ sin (w / 2) = g_courant g * sin (PI / 20 / 2)
  /\ scattered (g_courant g) w (PI / 20) eps sig 25 44 A r t
  /\ oscillates w A g 0 18 52 /\ run_steps 10 g = Ok g'
  /\ step g = Ok g1 /\ step g1 = Ok g2 /\ oscillates w A g1 1 18 52 /\ oscillates w A g2 2 18 52.
Proof. exact stack_case. Qed.

(** C102: light that meets an interface is reflected and refracted with amplitudes that
    depend on the two materials only, and goes on so for ever. *)
Theorem C102_interface : forall e1 e2 m w k1 k2 g g' lo hi n j, 0 < e1 -> 0 < e2 -> 0 < k1 < PI -> 0 < k2 < PI ->
  free_columns g (two_materials e1 e2 m) (fun _ => 0) lo hi -> 0 < g_courant g ->
  sin (w / 2) * sqrt e1 = g_courant g * sin (k1 / 2) -> sin (w / 2) * sqrt e2 = g_courant g * sin (k2 / 2) ->
  oscillates w (at_interface k1 k2 m) g n lo hi -> run_steps j g = Ok g' ->
  oscillates w (at_interface k1 k2 m) g' (n + j) (lo + j) (hi - j).
Proof. exact interface_runs. Qed.
Print Assumptions C102_interface.
Example C102_case : exists g0 g g' w k2,
  init_fdtd stack_cfg (Some stack_slice) (1 / 1000000) = Ok g0
  /\ g = with_fields g0 (E_osc w (at_interface (PI / 20) k2 25) 0) (H_osc (g_courant g0) w (at_interface (PI / 20) k2 25) 0) 0 (g_boundaries g0) (g_detectors g0)
  /\ free_columns g (two_materials 1 4 25) (fun _ => 0) 16 34 /\ 0 < g_courant g
  /\ 0 < k2 < PI /\ sin (w / 2) * sqrt 1 = g_courant g * sin (PI / 20 / 2) /\ sin (w / 2) * sqrt 4 = g_courant g * sin (k2 / 2)
  /\ sin (k2 / 2) = 2 * sin (PI / 20 / 2)
  /\ oscillates w (at_interface (PI / 20) k2 25) g 0 16 34 /\ run_steps 7 g = Ok g'.
Proof. exact interface_case. Qed.
(** They are Fresnel's, with every index of refraction divided by the cosine of half the
    phase per column. *)
Theorem C102_indices : forall n1 n2 w co k1 k2, 0 < n1 -> 0 < n2 -> 0 < k1 < PI -> 0 < k2 < PI -> 0 < co ->
  sin (w / 2) * n1 = co * sin (k1 / 2) -> sin (w / 2) * n2 = co * sin (k2 / 2) ->
  grid_rho k1 k2 = (n2 * cos (k1 / 2) - n1 * cos (k2 / 2)) / (n2 * cos (k1 / 2) + n1 * cos (k2 / 2))
  /\ grid_tau k1 k2 = 2 * n1 * cos (k1 / 2) / (n2 * cos (k1 / 2) + n1 * cos (k2 / 2)).
Proof. exact interface_indices. Qed.
Print Assumptions C102_indices.
(** No power is lost at the interface. *)
Theorem C102_power : forall k1 k2, 0 < k1 < PI -> 0 < k2 < PI -> grid_rho k1 k2 ^ 2 + grid_tau k1 k2 ^ 2 * (sin k2 / sin k1) = 1.
Proof. exact interface_power. Qed.
Print Assumptions C102_power.
(** Coming from vacuum the reflected amplitude is Fresnel's (n - 1) / (n + 1) up to an error
    given by the number of columns per wavelength in the material: 0.03 for ten columns. *)
Theorem C102_fresnel : forall n k k2, 1 <= n -> 0 < k < PI -> 0 < k2 < PI -> sin (k2 / 2) = n * sin (k / 2) ->
  0 <= grid_rho k k2 - (n - 1) / (n + 1) <= (1 / cos (k2 / 2) - 1) / 2.
Proof. exact interface_fresnel. Qed.
Print Assumptions C102_fresnel.
Theorem C102_fresnel_ten : forall n k k2, 1 <= n -> 0 < k < PI -> 0 < k2 <= 2 * PI / 10 -> sin (k2 / 2) = n * sin (k / 2) ->
  0 <= grid_rho k k2 - (n - 1) / (n + 1) <= 3 / 100.
Proof. exact interface_ten. Qed.
Print Assumptions C102_fresnel_ten.
Example C102_ten_case : exists k k2, 0 < k < PI /\ 0 < k2 <= 2 * PI / 10 /\ sin (k2 / 2) = 2 * sin (k / 2) /\ (2 - 1) / (2 + 1) = / 3.
Proof.
  pose proof PI_RGT_0 as P. assert (S : 0 < sin (PI / 10) <= 1) by (split; [apply sin_gt_0; lra|apply SIN_bound]).
  destruct (solve_sine (sin (PI / 10) / 2)) as (k & K & D); [lra|]. exists k, (2 * PI / 10).
  split; [exact K|]. split; [lra|]. split; [|field]. rewrite D. replace (2 * PI / 10 / 2) with (PI / 10) by field. field.
Qed.
