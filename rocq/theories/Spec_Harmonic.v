(** Vocabulary for C101 and C102: waves of one frequency in a simulation whose material
    depends on the column only. *)
From Coq Require Import Reals ZArith String List.
From Verif Require Import Base Cplx Model_FDTD Spec_FDTD Model_Layout.
Import ListNotations.
Open Scope R_scope.

(** The columns [lo] to [hi] have relative permittivity [eps x] and absorption factor
    [sig x] in column [x]; no absorbing boundary and no source stands there, and the only
    periodic boundary is that of the rows. *)
Definition free_columns (g : grid) (eps sig : nat -> R) (lo hi : nat) : Prop :=
  (hi < g_N g AX)%nat
  /\ Forall (fun b => match b with
       | Periodic a => a = AY
       | PMLb pm => p_axis pm = AX /\ if p_high pm then (hi < g_N g AX - p_thick pm)%nat else (p_thick pm <= lo)%nat
       | _ => True end) (g_boundaries g)
  /\ Forall (fun s => exists x0, source_in_plane (g_N g) AX x0 s /\ ~ (lo <= x0 <= hi)%nat) (g_sources g)
  /\ forall p, in_grid (g_N g) p -> (lo <= coord AX p <= hi)%nat ->
       g_ie g p AZ = / eps (coord AX p) /\ g_abs g p AZ = sig (coord AX p) /\ g_im g p AY = 1.

(** The oscillation with complex amplitude [A x] in column [x], [w] radians per time step,
    after [n] steps: the electric field points along z, the magnetic field along y, half a
    cell further and half a step later. *)
Definition E_osc (w : R) (A : nat -> C) (n : nat) : field := fun p c =>
  match c with AZ => Re (A (coord AX p) * Cis (- (w * INR n)))%C | _ => 0 end.
Definition H_osc (courant w : R) (A : nat -> C) (n : nat) : field := fun p c =>
  match c with
  | AY => Re (Ci * RtoC (courant / (2 * sin (w / 2))) * (A (S (coord AX p)) - A (coord AX p)) * Cis (- (w * (INR n + / 2))))%C
  | _ => 0
  end.
Definition oscillates (w : R) (A : nat -> C) (g : grid) (n lo hi : nat) : Prop :=
  forall p c, in_grid (g_N g) p -> (lo <= coord AX p <= hi)%nat ->
    g_E g p c = E_osc w A n p c /\ ((coord AX p < hi)%nat -> g_H g p c = H_osc (g_courant g) w A n p c).

(** The equation for the amplitudes of three neighbouring columns. *)
Definition balanced (courant w : R) (eps sig : nat -> R) (A : nat -> C) (x : nat) : Prop :=
  (A (S x) + A (x - 1)%nat)%C
  = ((RtoC 2 - RtoC (4 * sin (w / 2) * eps x / courant ^ 2) * (sin (w / 2), sig x * cos (w / 2))%R) * A x)%C.

(** A wave of amplitude 1 comes in from the left; [r] goes back and [t] goes on, [k] radians
    per column, the material standing in columns [a] to [b]. *)
Definition stands_between (eps sig : nat -> R) (a b : nat) : Prop :=
  forall x, 0 < eps x /\ 0 <= sig x /\ ((x < a)%nat \/ (b < x)%nat -> eps x = 1 /\ sig x = 0).
Definition scattered (courant w k : R) (eps sig : nat -> R) (a b : nat) (A : nat -> C) (r t : C) : Prop :=
  (forall x, (1 <= x)%nat -> balanced courant w eps sig A x)
  /\ (forall x, (x < a)%nat -> A x = (Cis (k * INR x) + r * Cis (- (k * INR x)))%C)
  /\ (forall x, (b < x)%nat -> A x = (t * Cis (k * INR x))%C).
(** Two waves: [u] to the right, [v] to the left. *)
Definition waves (k : R) (u v : C) (x : nat) : C := (u * Cis (k * INR x) + v * Cis (- (k * INR x)))%C.
(** The power column [x] takes out of the wave, in units of the incident one. *)
Definition taken (courant w k : R) (eps sig : nat -> R) (A : nat -> C) (x : nat) : R :=
  2 * sin w * eps x * sig x * Cnorm2 (A x) / (courant ^ 2 * sin k).

(** Two materials, the first one up to column [m] - 1: the amplitudes of a wave that comes in
    from the left with [k1] radians per column and goes on with [k2]; what comes back is
    turned round half a column before [m]. *)
Definition grid_rho (k1 k2 : R) : R := sin ((k2 - k1) / 2) / sin ((k2 + k1) / 2).
Definition grid_tau (k1 k2 : R) : R := sin k1 / sin ((k2 + k1) / 2).
Definition at_interface (k1 k2 : R) (m : nat) (x : nat) : C :=
  let y := INR x - INR m + / 2 in
  if (x <? m)%nat then (Cis (k1 * y) - RtoC (grid_rho k1 k2) * Cis (- (k1 * y)))%C
  else (RtoC (grid_tau k1 k2) * Cis (k2 * y))%C.
Definition two_materials (e1 e2 : R) (m : nat) (x : nat) : R := if (x <? m)%nat then e1 else e2.

(** The simulation of the example: ten columns per micrometre, two layers of one micrometre,
    the second one absorbing. *)
Definition stack_cfg : fdtd_cfg := mkFcfg 10 (3 / 2) 1 [1; 1] 1 (3 / 2) 1 "continuous"%string "line"%string 400 10.
Definition stack_slice : eps_slice := [[[(4, 0); (2, 1 / 10)]]].
