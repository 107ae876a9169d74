(** Vocabulary for C100: plane waves on a grid. *)
From Coq Require Import Reals ZArith List.
From Verif Require Import Base Model_FDTD Spec_FDTD.
Import ListNotations.
Open Scope R_scope.

(** The phase k.r of a wave with [k b] radians per cell along axis [b], at cell [p];
    component [c] of the electric field is half a cell further along [c], component
    [c] of the magnetic field half a cell further along the two other axes *)
Definition phase (k : axis -> R) (x : axis -> R) : R := sum3 (fun b => k b * x b).
Definition E_place (p : pos) (c : axis) : axis -> R := fun b => INR (coord b p) + (if axis_eqb b c then / 2 else 0).
Definition H_place (p : pos) (c : axis) : axis -> R := fun b => INR (coord b p) + (if axis_eqb b c then 0 else / 2).

(** A wave with amplitude vectors [e] and [h], [w] radians per time step, at the
    beginning of step [n]; the magnetic field is half a step ahead *)
Definition E_wave (k : axis -> R) (w phi : R) (e : axis -> R) (n : nat) : field := fun p c =>
  e c * cos (phase k (E_place p c) - w * INR n + phi).
Definition H_wave (k : axis -> R) (w phi : R) (h : axis -> R) (n : nat) : field := fun p c =>
  h c * cos (phase k (H_place p c) - w * (INR n + / 2) + phi).

Definition dot (a b : axis -> R) : R := sum3 (fun c => a c * b c).
Definition cross (a b : axis -> R) : axis -> R := fun c =>
  match c with
  | AX => a AY * b AZ - a AZ * b AY
  | AY => a AZ * b AX - a AX * b AZ
  | AZ => a AX * b AY - a AY * b AX
  end.

(** The wave vector as the grid sees it *)
Definition grid_vector (k : axis -> R) : axis -> R := fun b => sin (k b / 2).

(** A cell at least [n] cells away from the ends of the grid along the axes the wave
    varies along *)
Definition deep (k : axis -> R) (N : shape3) (n : nat) (p : pos) : Prop :=
  in_grid N p /\ forall b, k b = 0 \/ (n <= coord b p)%nat /\ (coord b p + n < N b)%nat.

(** A grid of one material without absorption, boundaries and sources *)
Definition bare (g : grid) (eps mu : R) : Prop :=
  g_boundaries g = [] /\ g_sources g = [] /\ g_abs g = zero_field /\ g_ie g = (fun _ _ => 1 / eps) /\ g_im g = (fun _ _ => 1 / mu).
