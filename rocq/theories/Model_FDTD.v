(** Model of the FDTD engine of [nidn/fdtd]: the grid, its curl operators, the
    time step, boundaries, sources and detectors.

    Simplifications common to the whole file: floats are exact reals; a tensor
    of shape (Nx,Ny,Nz,3) is a total function of a position and a component
    (entries outside the shape exist in the model but are never read back into
    the shape: every access in the code is guarded by its slice); if a step
    raises, the half-updated grid is not modelled (only the exception is). *)
From Coq Require Import Reals ZArith String List Bool Lra Lia.
From Verif Require Import Base.
Import ListNotations.
Open Scope R_scope.

(** The three axes; they double as the index 0, 1, 2 of the last tensor
    dimension (fdtd/constants.py 3-9). *)
Inductive axis := AX | AY | AZ.
Definition axis_eqb (a b : axis) : bool :=
  match a, b with AX, AX | AY, AY | AZ, AZ => true | _, _ => false end.

(** A cell of the grid, its index along an axis, and replacing that index. *)
Definition pos := (nat * nat * nat)%type.
Definition coord (a : axis) (p : pos) : nat :=
  match a, p with AX, (i, _, _) => i | AY, (_, j, _) => j | AZ, (_, _, k) => k end.
Definition setc (a : axis) (v : nat) (p : pos) : pos :=
  match a, p with
  | AX, (_, j, k) => (v, j, k)
  | AY, (i, _, k) => (i, v, k)
  | AZ, (i, j, _) => (i, j, v)
  end.

(** A tensor of shape (Nx,Ny,Nz,3). *)
Definition field := pos -> axis -> R.
Definition zero_field : field := fun _ _ => 0.
Definition shape3 := axis -> nat.

(** [F[1:] - F[:-1]] along axis [b] of component [c], stored at the lower
    index (target slice [:-1]; 0 is added elsewhere). *)
Definition dfwd (N : shape3) (F : field) (b c : axis) (p : pos) : R :=
  if (S (coord b p) <? N b)%nat
  then F (setc b (S (coord b p)) p) c - F p c else 0.
(** The same difference stored at the upper index (target slice [1:]). *)
Definition dbwd (F : field) (b c : axis) (p : pos) : R :=
  if (1 <=? coord b p)%nat
  then F p c - F (setc b (coord b p - 1) p) c else 0.

(** fdtd/grid.py 30-52: [curl_E]. *)
Definition curl_E (N : shape3) (E : field) : field := fun p a =>
  match a with
  | AX => dfwd N E AY AZ p - dfwd N E AZ AY p
  | AY => dfwd N E AZ AX p - dfwd N E AX AZ p
  | AZ => dfwd N E AX AY p - dfwd N E AY AX p
  end.

(** fdtd/grid.py 55-76: [curl_H]. *)
Definition curl_H (H : field) : field := fun p a =>
  match a with
  | AX => dbwd H AY AZ p - dbwd H AZ AY p
  | AY => dbwd H AZ AX p - dbwd H AX AZ p
  | AZ => dbwd H AX AY p - dbwd H AY AX p
  end.

(** * Boundaries *)

(** The state of a placed PML (fdtd/boundaries.py 214-421): the axis it is
    perpendicular to, whether it sits at the high end, its thickness, the
    factors b and c (384-396) and the convolution memory psi/phi (375-382).
    Positions inside these tensors are local to the PML. *)
Record pml := mkPML {
  p_axis : axis; p_high : bool; p_thick : nat;
  p_bE : field; p_cE : field; p_bH : field; p_cH : field;
  p_psiE : axis -> field; p_psiH : axis -> field;
  p_phiE : field; p_phiH : field }.

(** [Periodic a]: _PeriodicBoundaryX/Y/Z (boundaries.py 173-208).
    [InertPeriodic]: a PeriodicBoundary whose registration raised before its
    class was changed (it keeps the no-op updates of the base class, 79-105).
    [UnplacedPML]: a PML whose registration raised before
    [_calculate_parameters] (it has no psi/phi attributes). *)
Inductive boundary :=
| Periodic (a : axis)
| PMLb (p : pml)
| InertPeriodic
| UnplacedPML.

(** The shape of a PML's tensors (boundaries.py 489-490, 512-513, 535-536,
    558-559, 581-582, 604-605). *)
Definition pml_shape (N : shape3) (pm : pml) : shape3 := fun a =>
  if axis_eqb a (p_axis pm) then p_thick pm else N a.

(** The index offset of the slice [loc] (boundaries.py 483-487 low: slice(None,
    thickness); 506-510 high: slice(-thickness, None); same for y, z). *)
Definition pml_offset (N : shape3) (pm : pml) : nat :=
  if p_high pm then N (p_axis pm) - p_thick pm else 0.

(** The grid cell of a local PML cell, and back. *)
Definition pml_cell (N : shape3) (pm : pml) (q : pos) : pos :=
  setc (p_axis pm) (coord (p_axis pm) q + pml_offset N pm)%nat q.
Definition pml_local (N : shape3) (pm : pml) (p : pos) : pos :=
  setc (p_axis pm) (coord (p_axis pm) p - pml_offset N pm)%nat p.
Definition in_pml (N : shape3) (pm : pml) (p : pos) : bool :=
  (pml_offset N pm <=? coord (p_axis pm) p)%nat
  && (coord (p_axis pm) p <? pml_offset N pm + p_thick pm)%nat.

(** boundaries.py 423-449: [PML.update_phi_E]; 429-431 decay all three
    components, 438-445 add the driven ones. *)
Definition pml_phi_E (N : shape3) (H : field) (pm : pml) : pml :=
  let Hl : field := fun q c => H (pml_cell N pm q) c in
  let psi (x : axis) : field := fun q c =>
    p_psiE pm x q c * p_bE pm q c
    + match x, c with
      | AX, AY => dbwd Hl AY AZ q * p_cE pm q AY
      | AX, AZ => dbwd Hl AZ AY q * p_cE pm q AZ
      | AY, AZ => dbwd Hl AZ AX q * p_cE pm q AZ
      | AY, AX => dbwd Hl AX AZ q * p_cE pm q AX
      | AZ, AX => dbwd Hl AX AY q * p_cE pm q AX
      | AZ, AY => dbwd Hl AY AX q * p_cE pm q AY
      | _, _ => 0
      end in
  let phi : field := fun q c =>
    match c with
    | AX => psi AX q AY - psi AX q AZ
    | AY => psi AY q AZ - psi AY q AX
    | AZ => psi AZ q AX - psi AZ q AY
    end in
  mkPML (p_axis pm) (p_high pm) (p_thick pm)
        (p_bE pm) (p_cE pm) (p_bH pm) (p_cH pm)
        psi (p_psiH pm) phi (p_phiH pm).

(** boundaries.py 451-477: [PML.update_phi_H]. *)
Definition pml_phi_H (N : shape3) (E : field) (pm : pml) : pml :=
  let L := pml_shape N pm in
  let El : field := fun q c => E (pml_cell N pm q) c in
  let psi (x : axis) : field := fun q c =>
    p_psiH pm x q c * p_bH pm q c
    + match x, c with
      | AX, AY => dfwd L El AY AZ q * p_cH pm q AY
      | AX, AZ => dfwd L El AZ AY q * p_cH pm q AZ
      | AY, AZ => dfwd L El AZ AX q * p_cH pm q AZ
      | AY, AX => dfwd L El AX AZ q * p_cH pm q AX
      | AZ, AX => dfwd L El AX AY q * p_cH pm q AX
      | AZ, AY => dfwd L El AY AX q * p_cH pm q AY
      | _, _ => 0
      end in
  let phi : field := fun q c =>
    match c with
    | AX => psi AX q AY - psi AX q AZ
    | AY => psi AY q AZ - psi AY q AX
    | AZ => psi AZ q AX - psi AZ q AY
    end in
  mkPML (p_axis pm) (p_high pm) (p_thick pm)
        (p_bE pm) (p_cE pm) (p_bH pm) (p_cH pm)
        (p_psiE pm) psi (p_phiE pm) phi.

(** The calls [boundary.update_phi_E()] / [update_phi_H()]
    (fdtd/grid.py 280-281, 310-311).  A PML without parameters raises
    AttributeError; a PML thicker than the grid raises RuntimeError because its
    tensors do not match the field slice (torch broadcasting). *)
Definition boundary_phi_E (N : shape3) (H : field) (b : boundary) : res boundary :=
  match b with
  | PMLb pm => if (p_thick pm <=? N (p_axis pm))%nat
               then Ok (PMLb (pml_phi_E N H pm)) else Err RuntimeError
  | UnplacedPML => Err AttributeError
  | _ => Ok b
  end.
Definition boundary_phi_H (N : shape3) (E : field) (b : boundary) : res boundary :=
  match b with
  | PMLb pm => if (p_thick pm <=? N (p_axis pm))%nat
               then Ok (PMLb (pml_phi_H N E pm)) else Err RuntimeError
  | UnplacedPML => Err AttributeError
  | _ => Ok b
  end.

(** The constant of boundaries.py 408. *)
Definition pml_bias : R := / 10 ^ 16.

(** The calls [boundary.update_E()]: periodic copy of the last layer onto the
    first (boundaries.py 177, 190, 203), PML correction (405-409). *)
Definition boundary_update_E (N : shape3) (courant : R) (ie : field)
    (b : boundary) (E : field) : field :=
  match b with
  | Periodic a => fun p c =>
      if (coord a p =? 0)%nat then E (setc a (N a - 1) p) c else E p c
  | PMLb pm => fun p c =>
      if in_pml N pm p
      then E p c + courant * ie p c * (p_phiE pm (pml_local N pm p) c + pml_bias)
      else E p c
  | _ => E
  end.

(** The calls [boundary.update_H()]: periodic copy of the first layer onto the
    last (boundaries.py 182, 195, 208), PML correction (417-421). *)
Definition boundary_update_H (N : shape3) (courant : R) (im : field)
    (b : boundary) (H : field) : field :=
  match b with
  | Periodic a => fun p c =>
      if (coord a p =? N a - 1)%nat then H (setc a 0%nat p) c else H p c
  | PMLb pm => fun p c =>
      if in_pml N pm p
      then H p c - courant * im p c * p_phiH pm (pml_local N pm p) c
      else H p c
  | _ => H
  end.

(** * Indexing *)

(** A tensor index of Python: negative counts from the end, out of range raises
    IndexError. *)
Definition resolve (n : nat) (z : Z) : res nat :=
  if ((0 <=? z) && (z <? Z.of_nat n))%Z then Ok (Z.to_nat z)
  else if ((- Z.of_nat n <=? z) && (z <? 0))%Z then Ok (Z.to_nat (z + Z.of_nat n))
  else Err IndexError.
Definition zpos := (Z * Z * Z)%type.
Definition resolve3 (N : shape3) (p : zpos) : res pos :=
  let '(x, y, z) := p in
  let! i := resolve (N AX) x in
  let! j := resolve (N AY) y in
  let! k := resolve (N AZ) z in
  Ok (i, j, k).

Definition pos_eqb (p q : pos) : bool :=
  let '(i, j, k) := p in let '(a, b, c) := q in
  ((i =? a) && (j =? b) && (k =? c))%nat%bool.

(** [F[p, c] += v] *)
Definition add_at (F : field) (p : pos) (c : axis) (v : R) : field := fun q d =>
  if pos_eqb p q && axis_eqb c d then F q d + v else F q d.

Fixpoint fold_res {A B} (f : B -> A -> res A) (l : list B) (a : A) : res A :=
  match l with [] => Ok a | x :: r => let! a' := f x a in fold_res f r a' end.
Fixpoint map_res {A B} (f : A -> res B) (l : list A) : res (list B) :=
  match l with
  | [] => Ok []
  | x :: r => let! y := f x in let! ys := map_res f r in Ok (y :: ys)
  end.

(** * Sources *)

(** fdtd/waveforms.py 8-9: [hanning]. *)
Definition hanning (f t n : R) : R := 1 / 2 * (1 - cos (f * t / n)) * sin (f * t).
(** fdtd/sources.py 672-685: [_ricker]. *)
Definition ricker (q gpw offset courant : R) : R :=
  let var := (PI * (q * courant / gpw - offset)) ^ 2 in
  (1 - 2 * var) * exp (- var).

(** What the attribute [signal_type] selects (sources.py 102-121, 298-318),
    with the attributes the branch reads.  The period of the continuous signal
    is the integer number of steps set by [_handle_time] (95, 210). *)
Inductive signal :=
| Continuous (period : Z) (phase : R)
| Hanning (frequency hanning_dt cycle : R)
| Ricker (grid_points_per_wavelength courant : R).

(** sources.py 103, 299: t1 = int(2 pi / (frequency * hanning_dt / cycle)). *)
Definition hanning_end (f dt cycle : R) : Z := Rtrunc (2 * PI / (f * dt / cycle)).

(** sources.py 101-121: the value a PointSource adds at step [q].  The ricker
    branch assigns the misspelt name [vsrcect] (115), so [src] is unbound. *)
Definition point_value (amp : R) (s : signal) (q : nat) : res R :=
  match s with
  | Hanning f dt cycle =>
      if Reqb cycle 0 || Reqb (f * dt / cycle) 0 then Err ZeroDivisionError else
      if (Z.of_nat q <? hanning_end f dt cycle)%Z
      then Ok (amp * hanning f (INR q * dt) cycle) else Ok 0
  | Ricker gpw courant =>
      if Rltb (INR q) (gpw * 6) then Err UnboundLocalError else Ok (amp * 0)
  | Continuous period phase =>
      if (period =? 0)%Z then Err ZeroDivisionError
      else Ok (amp * sin (2 * PI * INR q / IZR period + phase))
  end.

(** sources.py 296-318: the factor a LineSource multiplies its profile with. *)
Definition line_factor (s : signal) (q : nat) : res R :=
  match s with
  | Hanning f dt cycle =>
      if Reqb cycle 0 || Reqb (f * dt / cycle) 0 then Err ZeroDivisionError else
      if (Z.of_nat q <? hanning_end f dt cycle)%Z
      then Ok (hanning f (INR q * dt) cycle) else Ok 0
  | Ricker gpw courant =>
      if Rltb (INR q) (gpw * 6)
      then Ok (ricker (INR q) gpw 1 courant) else Ok 0
  | Continuous period phase =>
      if (period =? 0)%Z then Err ZeroDivisionError
      else Ok (sin (2 * PI * INR q / IZR period + phase))
  end.

(** A placed source.  [UnplacedSource]: a source whose registration raised, so
    that it is in [grid.sources] without its coordinates. *)
Inductive source :=
| PointSource (cell : zpos) (amp : R) (s : signal)
| LineSource (cells : list zpos) (profile : list R) (s : signal)
| PlaneSource (lo hi : zpos) (Epol Hpol : axis) (amp : R) (period : Z) (phase : R)
| UnplacedSource.

(** The cells lo <= p < hi. *)
Definition in_box (lo hi p : pos) : bool :=
  forallb (fun a => (coord a lo <=? coord a p)%nat && (coord a p <? coord a hi)%nat)
          [AX; AY; AZ].
(** Where Python's slicing puts a bound: negative bounds count from the end,
    everything is clipped to the tensor. *)
Definition clip (n : nat) (z : Z) : nat :=
  Z.to_nat (if (z <? 0)%Z then z + Z.of_nat n else Z.min z (Z.of_nat n)).
Definition zcoord (a : axis) (p : zpos) : Z :=
  let '(x, y, z) := p in match a with AX => x | AY => y | AZ => z end.
Definition clip3 (N : shape3) (p : zpos) : pos :=
  (clip (N AX) (zcoord AX p), clip (N AY) (zcoord AY p), clip (N AZ) (zcoord AZ p)).
(** A tensor of the given extents can be assigned to the slices lo:hi exactly
    if every extent is 1 or the number of cells the slice has on the grid. *)
Definition box_fits (N : shape3) (extent : axis -> Z) (lo hi : zpos) : bool :=
  forallb (fun a => (extent a =? 1)%Z
                    || (extent a =? Z.of_nat (clip (N a) (zcoord a hi) - clip (N a) (zcoord a lo)))%Z)
          [AX; AY; AZ].
(** The extents of a plane source's profile (sources.py 401-412). *)
Definition plane_extent (lo hi : zpos) (a : axis) : Z := (zcoord a hi - zcoord a lo)%Z.

(** sources.py 99-122 (point), 294-322 (line), 502-506 (plane; the only hard
    source: it assigns instead of adding). *)
Definition source_update_E (N : shape3) (q : nat) (s : source) (E : field) : res field :=
  match s with
  | PointSource cell amp sg =>
      let! v := point_value amp sg q in
      let! p := resolve3 N cell in
      Ok (add_at E p AZ v)
  | LineSource cells profile sg =>
      let! f := line_factor sg q in
      fold_res (fun cv F => let! p := resolve3 N (fst cv) in
                            Ok (add_at F p AZ (snd cv * f)))
               (combine cells profile) E
  | PlaneSource lo hi ep _ amp period phase =>
      if (period =? 0)%Z then Err ZeroDivisionError else
      if negb (box_fits N (plane_extent lo hi) lo hi) then Err RuntimeError else
      Ok (fun p c => if in_box (clip3 N lo) (clip3 N hi) p && axis_eqb c ep
                     then amp * sin (2 * PI * INR q / IZR period + phase)
                     else E p c)
  | UnplacedSource => Err AttributeError
  end.

(** sources.py 124-125, 324-325 (no effect), 508-512 (plane). *)
Definition source_update_H (N : shape3) (q : nat) (s : source) (H : field) : res field :=
  match s with
  | PlaneSource lo hi _ hp amp period phase =>
      if (period =? 0)%Z then Err ZeroDivisionError else
      if negb (box_fits N (plane_extent lo hi) lo hi) then Err RuntimeError else
      Ok (fun p c => if in_box (clip3 N lo) (clip3 N hi) p && axis_eqb c hp
                     then amp * sin (2 * PI * INR q / IZR period + phase)
                     else H p c)
  | _ => Ok H
  end.

(** * Detectors *)

Definition vec := axis -> R.

(** [FieldDetector]: LineDetector (detectors.py 20-143) and BlockDetector
    (146-281); a block's nested lists are flattened row by row.
    [CurrentDetector]: detectors.py 284-498.
    [UnplacedDetector]: a detector whose registration raised. *)
Inductive detector :=
| FieldDetector (cells : list zpos) (Es Hs : list (list vec))
| CurrentDetector (cells : list zpos) (Is : list (list R))
| UnplacedDetector.

Definition sample (N : shape3) (F : field) (cells : list zpos) : res (list vec) :=
  map_res (fun c => let! p := resolve3 N c in Ok (F p)) cells.

(** [detect_E] of the detector classes (line: E[x, y, z] appended). *)
Definition detect_E (N : shape3) (E : field) (d : detector) : res detector :=
  match d with
  | FieldDetector cells Es Hs =>
      let! v := sample N E cells in Ok (FieldDetector cells (Es ++ [v]) Hs)
  | CurrentDetector _ _ => Ok d
  | UnplacedDetector => Err AttributeError
  end.

(** detectors.py 443-466: [single_point_current]; line 457 accumulates onto
    the first [current_vector_2] instead of replacing it. *)
Definition point_current (N : shape3) (spacing : R) (H : field) (c : zpos) : res R :=
  let '(x, y, z) := c in
  let at_ p a := let! q := resolve3 N p in Ok (H q a) in
  let! h1 := at_ (x, y - 1, z)%Z AX in
  let! h2 := at_ (x, y, z) AX in
  let! h3 := at_ (x, y, z) AY in
  let! h4 := at_ (x - 1, y, z)%Z AY in
  let v1 := (h1 - h2) * spacing in
  let v2 := (h3 - h4) * spacing in
  let current_1 := v1 + v2 in
  let! k1 := at_ (x, y - 1, z - 1)%Z AX in
  let! k2 := at_ (x, y, z - 1)%Z AX in
  let! k3 := at_ (x, y, z - 1)%Z AY in
  let! k4 := at_ (x - 1, y, z - 1)%Z AY in
  let w1 := (k1 - k2) * spacing in
  let w2 := v2 + (k3 - k4) * spacing in
  let current_2 := w1 + w2 in
  Ok ((current_1 + current_2) / 2).

(** [detect_H] of the detector classes; current: detectors.py 468-482. *)
Definition detect_H (N : shape3) (spacing : R) (H : field) (d : detector) : res detector :=
  match d with
  | FieldDetector cells Es Hs =>
      let! v := sample N H cells in Ok (FieldDetector cells Es (Hs ++ [v]))
  | CurrentDetector cells Is =>
      let! v := map_res (point_current N spacing H) cells in
      Ok (CurrentDetector cells (Is ++ [v]))
  | UnplacedDetector => Err AttributeError
  end.

(** * The grid *)

(** fdtd/grid.py 110-170.  [g_attrs] lists the attribute names [hasattr] finds;
    [g_objects] only counts the objects, whose update hooks are no-ops
    (objects.py 127-133, 212-218) and whose material values are written into
    [g_ie] and [g_abs] at registration. *)
Record grid := mkGrid {
  g_N : shape3; g_spacing : R; g_courant : R; g_time_step : R;
  g_E : field; g_H : field; g_abs : field; g_ie : field; g_im : field;
  g_steps : nat;
  g_sources : list source; g_boundaries : list boundary;
  g_detectors : list detector; g_objects : nat;
  g_attrs : list string }.

Definition with_fields (g : grid) (E H : field) (n : nat)
    (bs : list boundary) (ds : list detector) : grid :=
  mkGrid (g_N g) (g_spacing g) (g_courant g) (g_time_step g)
         E H (g_abs g) (g_ie g) (g_im g) n
         (g_sources g) bs ds (g_objects g) (g_attrs g).

(** fdtd/grid.py 282-289: decay and curl term (absorption factor a). *)
Definition bulk_E (g : grid) : field := fun p c =>
  g_E g p c * ((1 - g_abs g p c) / (1 + g_abs g p c))
  + g_courant g * g_ie g p c * curl_H (g_H g) p c / (1 + g_abs g p c).

(** fdtd/grid.py 276-304: [Grid.update_E]. *)
Definition update_E (g : grid) : res grid :=
  let! bs := map_res (boundary_phi_E (g_N g) (g_H g)) (g_boundaries g) in
  let E1 := bulk_E g in
  let E2 := fold_left (fun E b => boundary_update_E (g_N g) (g_courant g) (g_ie g) b E)
                      bs E1 in
  let! E3 := fold_res (source_update_E (g_N g) (g_steps g)) (g_sources g) E2 in
  let! ds := map_res (detect_E (g_N g) E3) (g_detectors g) in
  Ok (with_fields g E3 (g_H g) (g_steps g) bs ds).

(** fdtd/grid.py 313-314: H -= courant * inverse_permeability * curl_E(E). *)
Definition bulk_H (g : grid) : field := fun p c =>
  g_H g p c - g_courant g * g_im g p c * curl_E (g_N g) (g_E g) p c.

(** fdtd/grid.py 306-330: [Grid.update_H]. *)
Definition update_H (g : grid) : res grid :=
  let! bs := map_res (boundary_phi_H (g_N g) (g_E g)) (g_boundaries g) in
  let H1 := bulk_H g in
  let H2 := fold_left (fun H b => boundary_update_H (g_N g) (g_courant g) (g_im g) b H)
                      bs H1 in
  let! H3 := fold_res (source_update_H (g_N g) (g_steps g)) (g_sources g) H2 in
  let! ds := map_res (detect_H (g_N g) (g_spacing g) H3) (g_detectors g) in
  Ok (with_fields g (g_E g) H3 (g_steps g) bs ds).

(** fdtd/grid.py 268-274: [Grid.step]. *)
Definition step (g : grid) : res grid :=
  let! g1 := update_E g in
  let! g2 := update_H g1 in
  Ok (with_fields g2 (g_E g2) (g_H g2) (S (g_steps g2)) (g_boundaries g2) (g_detectors g2)).

(** fdtd/grid.py 251-266: [Grid.run] with an int (range(0, n) is empty for
    n <= 0) and with a float (converted with the time step, truncated). *)
Fixpoint run_steps (n : nat) (g : grid) : res grid :=
  match n with O => Ok g | S m => let! g' := step g in run_steps m g' end.
Definition run_int (n : Z) (g : grid) : res grid := run_steps (Z.to_nat n) g.
Definition run_float (t : R) (g : grid) : res grid :=
  run_steps (Z.to_nat (Rtrunc (t / g_time_step g))) g.

(** fdtd/grid.py 246-249: [time_passed]. *)
Definition time_passed (g : grid) : R := INR (g_steps g) * g_time_step g.

(** fdtd/grid.py 332-336: [Grid.reset]. *)
Definition reset (g : grid) : grid :=
  with_fields g (fun p c => g_E g p c * 0) (fun p c => g_H g p c * 0) 0
              (g_boundaries g) (g_detectors g).
