(** Vocabulary for stating where things are in an FDTD simulation. *)
From Coq Require Import Reals ZArith String List Bool Lra Lia.
From Verif Require Import Base PyVal Spec_Config Model_Units Model_Coeffs Model_FDTD Model_Register Spec_FDTD Spec_Register Model_Layout.
Import ListNotations.
Open Scope R_scope.

(** What a user sets: positive lengths, a detector at least one grid point and
    at most the free space away from the material. *)
Record proper (c : fdtd_cfg) : Prop := {
  pr_scaling : 0 < f_scaling c;
  pr_pml : 0 < f_pml c;
  pr_free : 0 < f_free c;
  pr_thick : Forall (fun t => 0 < t) (f_thick c);
  pr_det : (1 <= f_det c)%Z;
  pr_room : IZR (f_det c) <= f_scaling c * f_free c }.

(** Grid column of the position [x] (micrometres). *)
Definition column (c : fdtd_cfg) (x : R) : nat := Z.to_nat (Rfloor (f_scaling c * x)).

(** The position where layer [i] (from 0) begins, which is where layer [i-1]
    ends. *)
Definition layer_begin (c : fdtd_cfg) (i : nat) : R :=
  f_pml c + f_free c + Rsum (firstn i (f_thick c)).
Definition edge (c : fdtd_cfg) (i : nat) : nat := column c (layer_begin c i).
Definition material_end (c : fdtd_cfg) : nat := edge c (length (f_thick c)).
Definition columns (c : fdtd_cfg) : nat :=
  column c (f_pml c + f_free c + Rsum (f_thick c) + f_free c + f_pml c).
Definition pml_columns (c : fdtd_cfg) : nat := column c (f_pml c).
Definition reflection_column (c : fdtd_cfg) : nat := edge c 0 - Z.to_nat (f_det c).
Definition transmission_column (c : fdtd_cfg) : nat := material_end c + Z.to_nat (f_det c).

(** All three cells of a column. *)
Definition column_cells (x : nat) : list zpos :=
  [(Z.of_nat x, 0, 0); (Z.of_nat x, 1, 0); (Z.of_nat x, 2, 0)]%Z.

(** The frame shared by the free-space and the material simulation. *)
Definition framed (c : fdtd_cfg) (g : grid) : Prop :=
  g_N g AX = columns c /\ g_N g AY = 3%nat /\ g_N g AZ = 1%nat
  /\ g_spacing g = UNIT_MAGNITUDE / f_scaling c
  /\ (exists b1 b2, g_boundaries g = [b1; b2; Periodic AY]
        /\ is_pml_on AX false (pml_columns c) b1 /\ is_pml_on AX true (pml_columns c) b2)
  /\ g_detectors g = [FieldDetector (column_cells (transmission_column c)) [] [];
                      FieldDetector (column_cells (reflection_column c)) [] []]
  /\ g_steps g = 0%nat /\ g_E g = zero_field /\ g_H g = zero_field
  /\ g_im g = (fun _ _ => 1).

(** The source: at its column, driven with period wavelength/c. *)
Definition the_source (c : fdtd_cfg) (wavelength : R) (s : source) : Prop :=
  let x := Rtrunc (f_src_x c * f_scaling c) in
  let y := Rtrunc (f_src_y c * f_scaling c) in
  let spacing := UNIT_MAGNITUDE / f_scaling c in
  exists sg,
    (f_pulse c = "continuous"%string -> exists T, sg = Continuous T 0
       /\ IZR T <= wavelength / (99 / 100 / sqrt 2 * spacing) + / 2 < IZR T + 1)
    /\ (f_pulse c = "hanning"%string -> sg = Hanning (1 / (wavelength / SPEED_OF_LIGHT)) (/ 10 ^ 15) 5)
    /\ ((f_source c = "point"%string /\ s = PointSource (x, y, 0%Z) 1 sg)
        \/ (f_source c = "line"%string /\ exists profile,
              s = LineSource [(x, 0, 0); (x, 1, 0); (x, 2, 0)]%Z profile sg
              /\ Rsum profile = 1)).

(** A component of the inverse permittivity that an object sets uniformly: not
    the component normal to an axis in the object's last row along that axis
    (unless it is one row wide). *)
Definition regular_cell (c : axis) (lo hi : nat) (p : pos) : Prop :=
  match c with
  | AX => (S (coord AX p) < hi)%nat \/ (hi <= S lo)%nat
  | AY => (S (coord AY p) < 3)%nat
  | AZ => True
  end.

(** Conductivity of a material with permittivity [e] at this wavelength. *)
Definition conductivity (e : R * R) (wavelength : R) : R :=
  snd e * (SPEED_OF_LIGHT / wavelength) * 2 * PI * EPS_0.

(** All layers of a slice are vacuum. *)
Definition vacuum_slice (s : eps_slice) : Prop :=
  forall row cell e, In row s -> In cell row -> In e cell -> e = (1, 0).

(** The pulse and source kinds NIDN knows. *)
Definition known_kinds (c : fdtd_cfg) : Prop :=
  (f_pulse c = "continuous" \/ f_pulse c = "hanning" \/ f_pulse c = "ricker")%string
  /\ (f_source c = "point" \/ f_source c = "line")%string.

(** A source that can be used: its column is in the grid, a point source also
    lies in one of the three rows and does not use the ricker signal. *)
Definition usable_source (c : fdtd_cfg) : Prop :=
  index_ok (columns c) (Rtrunc (f_src_x c * f_scaling c))
  /\ (f_source c = "line"%string \/
      (f_source c = "point"%string /\ index_ok 3 (Rtrunc (f_src_y c * f_scaling c))
       /\ f_pulse c <> "ricker"%string)).


(** The config [c] has proper numbers in the entries the FDTD solver uses:
    thicknesses [T], wavelengths from [w0] to [w1], a PML of [p] micrometres, the
    source at [sx], [sy]. *)
Record fdtd_numbers (c : config) (T : list R) (w0 w1 p sx sy : R) : Prop := {
  fn_thick : exists l, entry c "PER_LAYER_THICKNESS" (VList l)
     /\ Forall2 (fun v t => num_of v = Some (Fin t) /\ 0 < t) l T;
  fn_wl : exists v0 v1 rest, entry c "physical_wavelength_range" (VList (v0 :: v1 :: rest))
     /\ num_of v0 = Some (Fin w0) /\ num_of v1 = Some (Fin w1) /\ 0 < w0;
  fn_pml : entry c "FDTD_pml_thickness" (VFloat (Fin p));
  fn_src : exists v0 v1 rest, entry c "FDTD_source_position" (VList (v0 :: v1 :: rest))
     /\ num_of v0 = Some (Fin sx) /\ num_of v1 = Some (Fin sy) }.

(** The mean of the electric field along z over the three cells of column [x]. *)
Definition column_mean (g : grid) (x : nat) : R :=
  (g_E g (x, 0, 0)%nat AZ + g_E g (x, 1, 0)%nat AZ + g_E g (x, 2, 0)%nat AZ) / 3.
