(** Vocabulary for the properties of plane sources. *)
From Coq Require Import Reals ZArith String List Bool Lra Lia.
From Verif Require Import Base Model_FDTD Model_Register.
Import ListNotations.
Open Scope Z_scope.

(** The range lo <= i < hi a plane source takes from an index along an
    axis with [n] cells: a number is one cell; the bounds of a slice may come in
    either order, missing ones are the ends of the grid, and equal ones stand for
    one cell. *)
Definition plane_bounds (n : nat) (k : hkey) (lo hi : Z) : Prop :=
  match k with
  | HList l => l = [lo] /\ hi = lo + 1
  | HSlice start stop _ =>
      let a := match start with Some v => v | None => 0 end in
      let b := match stop with Some v => v | None => Z.of_nat n end in
      (a < b /\ lo = a /\ hi = b) \/ (b < a /\ lo = b /\ hi = a) \/ (a = b /\ lo = a /\ hi = a + 1)
  end.

(** The polarizations that are understood, and the axis of the electric field
    they stand for. *)
Definition polarizations : list (string * axis) :=
  [("", AX); ("x", AX); ("xy", AX); ("xyz", AX); ("y", AY); ("yz", AY); ("z", AZ)]%string.

(** The axis that is neither of two different axes (the electric polarization
    and the normal of the plane).  For equal ones, which the code lets through:
    what it then takes. *)
Definition third_axis (e a : axis) : axis :=
  match e, a with
  | AX, AY | AY, AX => AZ
  | AX, AZ | AZ, AX => AY
  | AY, AZ | AZ, AY => AX
  | AX, AX => AZ | AY, AY => AZ | AZ, AZ => AY
  end.

(** A plane source with polarization [pol] at index x, y, z occupies lo .. hi with
    electric polarization [e] and magnetic polarization [h]: it is one cell wide
    along exactly one axis, which is not the polarization. *)
Definition placed_plane (N : shape3) (pol : string) (x y z : hkey) (lo hi : zpos) (e h : axis) : Prop :=
  exists normal : axis,
    plane_bounds (N AX) x (zcoord AX lo) (zcoord AX hi)
    /\ plane_bounds (N AY) y (zcoord AY lo) (zcoord AY hi)
    /\ plane_bounds (N AZ) z (zcoord AZ lo) (zcoord AZ hi)
    /\ (forall b, zcoord b hi - zcoord b lo = 1 <-> b = normal)
    /\ In (pol, e) polarizations
    /\ pol <> axis_letter normal
    /\ h = third_axis e normal.

(** The key of the whole plane at index [v] of an axis: grid[v, :, :],
    grid[:, v, :] or grid[:, :, v]. *)
Definition plane_at (a : axis) (v : Z) : list pykey :=
  match a with
  | AX => [KNum (PInt v); full_slice; full_slice]
  | AY => [full_slice; KNum (PInt v); full_slice]
  | AZ => [full_slice; full_slice; KNum (PInt v)]
  end.
(** What the source emits in step number [q]. *)
Definition plane_signal (g : grid) (s : plane_args) (q : nat) : R :=
  (pl_amplitude s * sin (2 * PI * INR q / IZR (handle_time (g_time_step g) (pl_period s)) + pl_phase s))%R.
