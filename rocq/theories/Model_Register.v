(** Model of how FDTD grids are built: the constructor, index normalisation and
    the registration of boundaries, objects, detectors and sources
    ([nidn/fdtd/grid.py], [boundaries.py], [objects.py], [detectors.py],
    [sources.py]).

    A registration changes the grid even when it raises, so it returns the new
    grid together with the exception, if any. *)
From Coq Require Import Reals ZArith String List Bool Lra Lia.
From Verif Require Import Base Model_Units Model_FDTD.
Import ListNotations.
Open Scope R_scope.

(** * Index normalisation *)

(** A Python number used as an index: an int or a float (a distance). *)
Inductive pynum := PInt (z : Z) | PFloat (r : R).

(** fdtd/grid.py 172-176: [_handle_distance]. *)
Definition handle_distance (spacing : R) (d : pynum) : Z :=
  match d with PInt z => z | PFloat r => Rtrunc (r / spacing + / 2) end.
(** fdtd/grid.py 178-182: [_handle_time]. *)
Definition handle_time (time_step : R) (t : pynum) : Z :=
  match t with PInt z => z | PFloat r => Rtrunc (r / time_step + / 2) end.

(** One entry of an index expression [grid[...]]: number, list or slice.
    Torch scalars as indices are not modelled. *)
Inductive pykey :=
| KNum (n : pynum)
| KList (l : list pynum)
| KSlice (start stop step : option pynum).

(** A normalised entry: a list of ints or a slice of ints. *)
Inductive hkey :=
| HList (l : list Z)
| HSlice (start stop step : option Z).

(** fdtd/grid.py 214-224 [_handle_single_key] with 199-212 [_handle_slice]. *)
Definition handle_key (spacing : R) (k : pykey) : hkey :=
  match k with
  | KNum n => HList [handle_distance spacing n]
  | KList l => HList (map (handle_distance spacing) l)
  | KSlice a b c => HSlice (option_map (handle_distance spacing) a)
                           (option_map (handle_distance spacing) b)
                           (option_map (handle_distance spacing) c)
  end.

(** fdtd/grid.py 359-368: the index expression padded to three entries. *)
Definition full_slice : pykey := KSlice None None None.
Definition pad_key (key : list pykey) : res (pykey * pykey * pykey) :=
  match key with
  | [x] => Ok (x, full_slice, full_slice)
  | [x; y] => Ok (x, y, full_slice)
  | [x; y; z] => Ok (x, y, z)
  | _ => Err KeyError
  end.

(** * The grid constructor *)

(** The attribute names a fresh grid has (fdtd/grid.py 88-575: instance
    attributes, properties and methods; the dunder names every Python object
    has are left out). *)
Open Scope string_scope.
Definition builtin_attrs : list string :=
  [ "grid_spacing"; "Nx"; "Ny"; "Nz"; "D"; "courant_number"; "time_step"; "E"; "H";
    "absorption_factor"; "inverse_permittivity"; "inverse_permeability";
    "time_steps_passed"; "sources"; "boundaries"; "detectors"; "objects"; "folder";
    "visualize"; "_handle_distance"; "_handle_time"; "_handle_tuple"; "_handle_slice";
    "_handle_single_key"; "x"; "y"; "z"; "shape"; "time_passed"; "run"; "step";
    "update_E"; "update_H"; "reset"; "add_source"; "add_boundary"; "add_detector";
    "add_object"; "save_simulation"; "generate_video"; "save_data" ].
Close Scope string_scope.

Definition has_attr (g : grid) (name : string) : bool :=
  existsb (String.eqb name) (g_attrs g).

(** fdtd/grid.py 116: the number of dimensions larger than one. *)
Definition sim_dim (N : shape3) : nat :=
  ((if 1 <? N AX then 1 else 0) + (if 1 <? N AY then 1 else 0)
   + (if 1 <? N AZ then 1 else 0))%nat.

(** fdtd/grid.py 119: float(D) ** (-0.5) (raises ZeroDivisionError for D = 0). *)
Definition max_courant (D : nat) : res R :=
  if (D =? 0)%nat then Err ZeroDivisionError else Ok (/ sqrt (INR D)).

Definition shape_of (x y z : nat) : shape3 := fun a =>
  match a with AX => x | AY => y | AZ => z end.

(** fdtd/grid.py 90-170 with 184-197 [_handle_tuple].  Background permittivity
    and permeability are non-zero numbers; negative sizes make the tensor
    constructors raise RuntimeError. *)
Definition make_grid (shape : list pynum) (spacing eps mu : R) (courant : option R)
  : res grid :=
  match shape with
  | [x; y; z] =>
    let nx := handle_distance spacing x in
    let ny := handle_distance spacing y in
    let nz := handle_distance spacing z in
    let N := shape_of (Z.to_nat nx) (Z.to_nat ny) (Z.to_nat nz) in
    let! cmax := max_courant (sim_dim N) in
    let! c := match courant with
              | None => Ok (99 / 100 * cmax)
              | Some c => if Rltb cmax c then Err ValueError else Ok c
              end in
    let! _ := ensure ((0 <=? nx) && (0 <=? ny) && (0 <=? nz))%Z RuntimeError in
    Ok (mkGrid N spacing c (c * spacing / SPEED_OF_LIGHT)
               zero_field zero_field zero_field
               (fun _ _ => 1 / eps) (fun _ _ => 1 / mu)
               0 [] [] [] 0 builtin_attrs)
  | _ => Err ValueError
  end.

(** * Registration *)

Definition outcome := (grid * option exn)%type.

(** The attribute test [hasattr]/[setattr] shared by all components
    (boundaries.py 54-60, objects.py 50-56, detectors.py, sources.py 82-88). *)
Definition claim_name (name : option string) (g : grid) : res grid :=
  match name with
  | None => Ok g
  | Some n =>
    if has_attr g n then Err ValueError else
    Ok (mkGrid (g_N g) (g_spacing g) (g_courant g) (g_time_step g)
               (g_E g) (g_H g) (g_abs g) (g_ie g) (g_im g) (g_steps g)
               (g_sources g) (g_boundaries g) (g_detectors g) (g_objects g)
               (n :: g_attrs g))
  end.

Definition add_boundary_ (b : boundary) (g : grid) : grid :=
  mkGrid (g_N g) (g_spacing g) (g_courant g) (g_time_step g)
         (g_E g) (g_H g) (g_abs g) (g_ie g) (g_im g) (g_steps g)
         (g_sources g) (g_boundaries g ++ [b]) (g_detectors g) (g_objects g) (g_attrs g).
Definition add_detector_ (d : detector) (g : grid) : grid :=
  mkGrid (g_N g) (g_spacing g) (g_courant g) (g_time_step g)
         (g_E g) (g_H g) (g_abs g) (g_ie g) (g_im g) (g_steps g)
         (g_sources g) (g_boundaries g) (g_detectors g ++ [d]) (g_objects g) (g_attrs g).
Definition add_source_ (s : source) (g : grid) : grid :=
  mkGrid (g_N g) (g_spacing g) (g_courant g) (g_time_step g)
         (g_E g) (g_H g) (g_abs g) (g_ie g) (g_im g) (g_steps g)
         (g_sources g ++ [s]) (g_boundaries g) (g_detectors g) (g_objects g) (g_attrs g).
Definition add_object_ (g : grid) : grid :=
  mkGrid (g_N g) (g_spacing g) (g_courant g) (g_time_step g)
         (g_E g) (g_H g) (g_abs g) (g_ie g) (g_im g) (g_steps g)
         (g_sources g) (g_boundaries g) (g_detectors g) (S (g_objects g)) (g_attrs g).
Definition with_material (ie ab : field) (g : grid) : grid :=
  mkGrid (g_N g) (g_spacing g) (g_courant g) (g_time_step g)
         (g_E g) (g_H g) ab ie (g_im g) (g_steps g)
         (g_sources g) (g_boundaries g) (g_detectors g) (g_objects g) (g_attrs g).

(** ** Boundaries *)

(** The attribute remembering that a face is taken (boundaries.py 151-152,
    157-158, 163-164, 298, 306, ...). *)
Open Scope string_scope.
Definition face_attr (a : axis) (high : bool) : string :=
  match a, high with
  | AX, false => "_xlow_boundary" | AX, true => "_xhigh_boundary"
  | AY, false => "_ylow_boundary" | AY, true => "_yhigh_boundary"
  | AZ, false => "_zlow_boundary" | AZ, true => "_zhigh_boundary"
  end.
Close Scope string_scope.

Definition claim_face (a : axis) (high : bool) (g : grid) : grid :=
  mkGrid (g_N g) (g_spacing g) (g_courant g) (g_time_step g)
         (g_E g) (g_H g) (g_abs g) (g_ie g) (g_im g) (g_steps g)
         (g_sources g) (g_boundaries g) (g_detectors g) (g_objects g)
         (face_attr a high :: g_attrs g).

(** What boundaries.py 62-77 [_handle_slice] leaves of an index: an int or a
    slice. *)
Inductive bkey := BInt (z : Z) | BSlice (start stop : option Z).
Definition boundary_slice (k : hkey) : res bkey :=
  match k with
  | HList [] => Err IndexError
  | HList [z] => Ok (BInt z)
  | HList _ => Err ValueError
  | HSlice (Some a) (Some b) _ =>
      if ((a =? b) || (Z.abs (a - b) =? 1))%Z then Ok (BInt a) else Ok (BSlice (Some a) (Some b))
  | HSlice a b _ => Ok (BSlice a b)
  end.

Definition at_border (k : bkey) : bool :=
  match k with BInt z => ((z =? 0) || (z =? -1))%Z | BSlice _ _ => false end.

(** The face test and claim of boundaries.py 148-152, 154-158, 160-164. *)
Definition place_periodic (a : axis) (g : grid) : outcome :=
  if has_attr g (face_attr a false) || has_attr g (face_attr a true)
  then (add_boundary_ (Periodic a) g, Some AttributeError)
  else (add_boundary_ (Periodic a) (claim_face a true (claim_face a false g)), None).

(** boundaries.py 142-169: [PeriodicBoundary._register_grid] with 31-60.
    (The list append comes first in the code; whatever is raised later leaves
    the boundary in the list.) *)
Definition register_periodic (name : option string) (x y z : hkey) (g : grid) : outcome :=
  match (let! bx := boundary_slice x in
         let! by_ := boundary_slice y in
         let! bz := boundary_slice z in
         let! g' := claim_name name g in
         Ok (bx, by_, bz, g')) with
  | Err e => (add_boundary_ InertPeriodic g, Some e)
  | Ok (bx, by_, bz, g') =>
      if at_border bx then place_periodic AX g' else
      if at_border by_ then place_periodic AY g' else
      if at_border bz then place_periodic AZ g' else
      (add_boundary_ InertPeriodic g', Some IndexError)
  end.

(** boundaries.py 349-354: [PML._handle_slice] keeps slices only. *)
Definition pml_slice (k : hkey) : res (option Z * option Z) :=
  match k with HSlice a b _ => Ok (a, b) | HList _ => Err ValueError end.

(** boundaries.py 290-294 / 300-302: is this slice at the low / high border? *)
Definition low_slice (s : option Z * option Z) : option nat :=
  match s with
  | (None, Some b) | (Some 0%Z, Some b) => if (0 <? b)%Z then Some (Z.to_nat b) else None
  | _ => None
  end.
Definition high_slice (s : option Z * option Z) : option nat :=
  match s with
  | (Some a, None) => if (a <? 0)%Z then Some (Z.to_nat (- a)) else None
  | _ => None
  end.

(** boundaries.py 280-282: [_sigma]. *)
Definition pml_sigma (thickness : nat) (v : R) : R :=
  40 * v ^ 3 / (INR thickness + 1) ^ 4.

(** boundaries.py 492-500, 515-523 (and the y, z versions): the electric and
    magnetic conductivity at local depth index [i]. *)
Definition sigmaE_at (high : bool) (t i : nat) : R :=
  pml_sigma t (if high then / 2 + INR i else INR t - / 2 - INR i).
Definition sigmaH_at (high : bool) (t i : nat) : R :=
  if (S i <? t)%nat
  then pml_sigma t (if high then 1 + INR i else INR t - 1 - INR i)
  else 0.
(** The conductivity tensors: only the component along the PML's axis is set. *)
Definition sigma_field (at_ : nat -> R) (a : axis) : field := fun q c =>
  if axis_eqb c a then at_ (coord a q) else 0.

(** boundaries.py 384-396 with k = 1 (238). *)
Definition pml_b (a courant sigma : R) : R := exp (- (sigma / 1 + a) * courant).
Definition pml_c (a courant sigma : R) : R :=
  (pml_b a courant sigma - 1) * sigma / (sigma * 1 + a * 1 ^ 2).

(** boundaries.py 356-396: [_calculate_parameters]. *)
Definition make_pml (ax : axis) (high : bool) (t : nat) (a courant : R) : pml :=
  let sE := sigma_field (sigmaE_at high t) ax in
  let sH := sigma_field (sigmaH_at high t) ax in
  mkPML ax high t
        (fun q c => pml_b a courant (sE q c)) (fun q c => pml_c a courant (sE q c))
        (fun q c => pml_b a courant (sH q c)) (fun q c => pml_c a courant (sH q c))
        (fun _ => zero_field) (fun _ => zero_field) zero_field zero_field.

Definition place_pml (ax : axis) (high : bool) (t : nat) (a : R) (g : grid) : outcome :=
  if has_attr g (face_attr ax high)
  then (add_boundary_ UnplacedPML g, Some AttributeError)
  else (add_boundary_ (PMLb (make_pml ax high t a (g_courant g))) (claim_face ax high g), None).

(** boundaries.py 284-347: [PML._register_grid]; [a] is the stability
    parameter (default 1e-8, line 228). *)
Definition register_pml (name : option string) (a : R) (x y z : hkey) (g : grid) : outcome :=
  match (let! sx := pml_slice x in
         let! sy := pml_slice y in
         let! sz := pml_slice z in
         let! g' := claim_name name g in
         Ok (sx, sy, sz, g')) with
  | Err e => (add_boundary_ UnplacedPML g, Some e)
  | Ok (sx, sy, sz, g') =>
      match low_slice sx with Some t => place_pml AX false t a g' | None =>
      match high_slice sx with Some t => place_pml AX true t a g' | None =>
      match low_slice sy with Some t => place_pml AY false t a g' | None =>
      match high_slice sy with Some t => place_pml AY true t a g' | None =>
      match low_slice sz with Some t => place_pml AZ false t a g' | None =>
      match high_slice sz with Some t => place_pml AZ true t a g' | None =>
      (add_boundary_ UnplacedPML g', Some IndexError)
      end end end end end end
  end.

(** ** Objects *)

(** objects.py 91-113: [Object._handle_slice]. *)
Definition object_slice (n : nat) (k : hkey) : res (Z * Z) :=
  match k with
  | HList [v] => Ok (v, v + 1)%Z
  | HList _ => Err IndexError
  | HSlice a b s =>
      if match s with Some v => negb (v =? 1)%Z | None => false end then Err IndexError else
      let a1 := match a with None => 0%Z | Some v => v end in
      let a2 := if (a1 <? 0)%Z then (Z.of_nat n + a1)%Z else a1 in
      let b1 := match b with None => Z.of_nat n | Some v => v end in
      let b2 := if (b1 <? 0)%Z then (Z.of_nat n + b1)%Z else b1 in
      Ok (a2, b2)
  end.

(** objects.py 58-60: the slices on the three axes, as start and stop. *)
Definition object_region (N : shape3) (x y z : hkey) : res (zpos * zpos) :=
  let! rx := object_slice (N AX) x in
  let! ry := object_slice (N AY) y in
  let! rz := object_slice (N AZ) z in
  Ok ((fst rx, fst ry, fst rz), (snd rx, snd ry, snd rz)).
(** objects.py 62-64: the extents of the object. *)
Definition object_extent (lo hi : zpos) (a : axis) : nat :=
  Z.to_nat (Z.abs (zcoord a hi - zcoord a lo)).
(** Number of cells the slices have on the grid. *)
Definition region_count (N : shape3) (lo hi : zpos) (a : axis) : nat :=
  (clip (N a) (zcoord a hi) - clip (N a) (zcoord a lo))%nat.

(** Whether torch carries out the assignments of objects.py 75-89: the border
    layer across an axis [c] along which the object is more than one cell wide
    is read from the grid at the object's slices on the other axes, and the
    whole is written to the object's slices.  A tensor can be assigned to
    another if every extent is 1 or equal.  (On a grid without cells along [c]
    the code raises IndexError instead of RuntimeError.) *)
Definition border_fits (N : shape3) (lo hi : zpos) (c : axis) : bool :=
  (object_extent lo hi c <=? 1)%nat
  || forallb (fun a => axis_eqb a c || (region_count N lo hi a =? 1)%nat
                       || (region_count N lo hi a =? object_extent lo hi a)%nat) [AX; AY; AZ].
Definition object_fits (N : shape3) (lo hi : zpos) : bool :=
  forallb (border_fits N lo hi) [AX; AY; AZ]
  && box_fits N (fun a => Z.of_nat (object_extent lo hi a)) lo hi.

Definition shift_pos (lo q : pos) : pos :=
  (coord AX lo + coord AX q, coord AY lo + coord AY q, coord AZ lo + coord AZ q)%nat.
(** The object's cell whose value lands in cell [p] of a target starting at
    [lo]. *)
Definition source_cell (ext : axis -> nat) (lo p : pos) : pos :=
  let f a := if (ext a =? 1)%nat then 0%nat else (coord a p - coord a lo)%nat in
  (f AX, f AY, f AZ).

(** objects.py 61-85: the object's inverse permittivity at its own cell [q]:
    1/eps, except that the component along an axis takes the grid's last value
    in the object's last layer along that axis (if it is more than one cell
    wide). *)
Definition object_ie (N : shape3) (ie : field) (eps : R) (lo hi : zpos) : field :=
  fun q c =>
    if (1 <? object_extent lo hi c)%nat && (S (coord c q) =? object_extent lo hi c)%nat
    then ie (setc c (N c - 1) (shift_pos (clip3 N lo) q)) c
    else 1 / eps.

(** objects.py 202: the absorption is written with the index as given, not
    with the slices of 58-60.  A list selects one cell, negative numbers
    counting from the end; a slice is clipped.  Two lists make torch drop an
    axis of the target (or move it to the front, for x and z), so that the
    assignment only works if the object is one cell wide along the slice, or
    the slice is the last index.  (The bounds check of lists is skipped by torch
    when nothing is to be written; the model checks always.) *)
Definition raw_range (n : nat) (k : hkey) : res (nat * nat) :=
  match k with
  | HList [v] => let! i := resolve n v in Ok (i, S i)
  | HList _ => Err IndexError
  | HSlice a b _ => Ok (match a with None => 0%nat | Some v => clip n v end,
                        match b with None => n | Some v => clip n v end)
  end.
Definition raw_count (n : nat) (k : hkey) : nat :=
  match k with
  | HList _ => 1
  | HSlice a b _ => (match b with None => n | Some v => clip n v end
                     - match a with None => 0 | Some v => clip n v end)%nat
  end.
Definition is_list (k : hkey) : bool := match k with HList _ => true | _ => false end.
Definition absorb_fits (N : shape3) (x y z : hkey) (ext : axis -> nat) : bool :=
  let fits a k := (ext a =? 1)%nat || (ext a =? raw_count (N a) k)%nat in
  match is_list x, is_list y, is_list z with
  | true, false, true => (ext AY =? 1)%nat
  | false, true, true => (ext AX =? 1)%nat
  | _, _, _ => fits AX x && fits AY y && fits AZ z
  end.
Definition raw_region (N : shape3) (x y z : hkey) : res (pos * pos) :=
  let! rx := raw_range (N AX) x in
  let! ry := raw_range (N AY) y in
  let! rz := raw_range (N AZ) z in
  Ok ((fst rx, fst ry, fst rz), (snd rx, snd ry, snd rz)).
(** objects.py 37-89: [Object._register_grid] with a scalar permittivity, and
    174-202 [AbsorbingObject._register_grid] with a scalar conductivity
    ([cond = None] is a plain Object). *)
Definition register_object (name : option string) (eps : R) (cond : option R)
    (x y z : hkey) (g : grid) : outcome :=
  let g0 := add_object_ g in
  match claim_name name g0 with
  | Err e => (g0, Some e)
  | Ok g1 =>
    match object_region (g_N g) x y z with
    | Err e => (g1, Some e)
    | Ok (lo, hi) =>
      if negb (object_fits (g_N g) lo hi) then (g1, Some RuntimeError) else
      let oie := object_ie (g_N g) (g_ie g) eps lo hi in
      let ie : field := fun p c =>
        if in_box (clip3 (g_N g) lo) (clip3 (g_N g) hi) p
        then oie (source_cell (object_extent lo hi) (clip3 (g_N g) lo) p) c else g_ie g p c in
      let g2 := with_material ie (g_abs g) g1 in
      match cond with
      | None => (g2, None)
      | Some s =>
        if negb (absorb_fits (g_N g) x y z (object_extent lo hi)) then (g2, Some RuntimeError) else
        match raw_region (g_N g) x y z with
        | Err e => (g2, Some e)
        | Ok (rlo, rhi) =>
          (with_material ie (fun p c =>
             if in_box rlo rhi p
             then / 2 * g_courant g * oie (source_cell (object_extent lo hi) rlo p) c * s * g_spacing g * ETA_0
             else g_abs g p c) g1, None)
        end
      end
    end
  end.

(** objects.py 224-237: [AnisotropicObject._register_grid] always raises,
    before anything is changed. *)
Definition register_anisotropic (g : grid) : outcome := (g, Some NotImplementedError).

(** ** Detectors and line-like sources *)

(** The i-th entry of bd.array(bd.linspace(a, b, m, endpoint=False), int)
    (backend.py 145-150): a + i (b-a)/m truncated towards zero, in exact
    arithmetic. *)
Definition line_index (a b : Z) (m i : nat) : Z :=
  Z.quot (a * Z.of_nat m + Z.of_nat i * (b - a)) (Z.of_nat m).

(** Mixed indices: a list becomes slice(first, last) (detectors.py,
    "convert the list-indices to slices"); open ends take 0 and the grid size. *)
Definition to_bounds (n : nat) (k : hkey) : res (Z * Z) :=
  match k with
  | HList [] => Err IndexError
  | HList (v :: r) => Ok (v, last r v)
  | HSlice a b _ => Ok (match a with Some v => v | None => 0%Z end,
                        match b with Some v => v | None => Z.of_nat n end)
  end.

Fixpoint zip3 (xs ys zs : list Z) : list zpos :=
  match xs, ys, zs with
  | x :: xr, y :: yr, z :: zr => (x, y, z) :: zip3 xr yr zr
  | _, _, _ => []
  end.

(** detectors.py [LineDetector._handle_slices] (62-113) and sources.py 225-292
    [LineSource._handle_slices]; [minimum] is the least number of points
    (0 for detectors; 2 for sources, ValueError otherwise).  m = 0 makes
    [linspace] divide by zero. *)
Definition line_cells (minimum : nat) (N : shape3) (x y z : hkey) : res (list zpos) :=
  match x, y, z with
  | HList xs, HList ys, HList zs =>
      if (length xs =? length ys)%nat && (length ys =? length zs)%nat
      then Ok (zip3 xs ys zs) else Err IndexError
  | _, _, _ =>
      let! bx := to_bounds (N AX) x in
      let! by_ := to_bounds (N AY) y in
      let! bz := to_bounds (N AZ) z in
      let m := Z.to_nat (Z.max (Z.max (Z.abs (snd bx - fst bx)) (Z.abs (snd by_ - fst by_)))
                               (Z.abs (snd bz - fst bz))) in
      let! _ := ensure (minimum <=? m)%nat ValueError in
      let! _ := ensure (negb (m =? 0)%nat) ZeroDivisionError in
      Ok (map (fun i => (line_index (fst bx) (snd bx) m i,
                         line_index (fst by_) (snd by_) m i,
                         line_index (fst bz) (snd bz) m i)) (seq 0 m))
  end.

(** bd.arange(a, b + 1) (RuntimeError if b + 1 < a). *)
Definition arange_incl (ab : Z * Z) : res (list Z) :=
  let '(a, b) := ab in
  if (b + 1 <? a)%Z then Err RuntimeError
  else Ok (map (fun i => (a + Z.of_nat i)%Z) (seq 0 (Z.to_nat (b + 1 - a)))).

(** The cells a block or current detector visits, row by row. *)
Definition block_product (xs ys zs : list Z) : list zpos :=
  flat_map (fun x => flat_map (fun y => map (fun z => (x, y, z)) zs) ys) xs.

(** detectors.py [BlockDetector._handle_slices] (190-239) and
    [CurrentDetector._handle_slices] (351-399). *)
Definition block_cells (N : shape3) (x y z : hkey) : res (list zpos) :=
  match x, y, z with
  | HList xs, HList ys, HList zs =>
      if (length xs =? length ys)%nat && (length ys =? length zs)%nat
      then Ok (block_product xs ys zs) else Err IndexError
  | _, _, _ =>
      let! bx := to_bounds (N AX) x in
      let! by_ := to_bounds (N AY) y in
      let! bz := to_bounds (N AZ) z in
      let! xs := arange_incl bx in
      let! ys := arange_incl by_ in
      let! zs := arange_incl bz in
      Ok (block_product xs ys zs)
  end.

Inductive det_kind := DLine | DBlock | DCurrent.

(** [_register_grid] of the three detector classes (detectors.py 35-61,
    161-188, 321-349). *)
Definition register_detector (k : det_kind) (name : option string)
    (x y z : hkey) (g : grid) : outcome :=
  match claim_name name g with
  | Err e => (add_detector_ UnplacedDetector g, Some e)
  | Ok g1 =>
    match (match k with DLine => line_cells 0 (g_N g) x y z
                      | _ => block_cells (g_N g) x y z end) with
    | Err e => (add_detector_ UnplacedDetector g1, Some e)
    | Ok cells =>
      (add_detector_ (match k with DCurrent => CurrentDetector cells []
                                 | _ => FieldDetector cells [] [] end) g1, None)
    end
  end.

(** ** Sources *)

(** Constructor arguments of PointSource and LineSource (sources.py 30-64,
    147-181). *)
Inductive signal_type := SContinuous | SHanning | SRicker.
Record source_args := mkSource {
  s_period : pynum; s_amplitude : R; s_phase : R;
  s_cycle : R; s_hanning_dt : option R; s_signal : signal_type }.

Definition pynum_R (n : pynum) : R := match n with PInt z => IZR z | PFloat r => r end.

(** sources.py 61, 178: frequency = 1.0 / period (non-zero period). *)
Definition s_frequency (s : source_args) : R := 1 / pynum_R (s_period s).
(** sources.py 62-63, 97 (179-180, 223). *)
Definition s_dt (s : source_args) : R :=
  match s_hanning_dt s with Some d => d | None => / 2 / s_frequency s end.
Definition s_gpw (spacing : R) (s : source_args) : R :=
  (SPEED_OF_LIGHT / s_frequency s) / spacing.

(** The attributes [update_E] reads after registration on grid [g]. *)
Definition source_signal (g : grid) (s : source_args) : signal :=
  match s_signal s with
  | SContinuous => Continuous (handle_time (g_time_step g) (s_period s)) (s_phase s)
  | SHanning => Hanning (s_frequency s) (s_dt s) (s_cycle s)
  | SRicker => Ricker (s_gpw (g_spacing g) s) (g_courant g)
  end.

(** sources.py 66-97: [PointSource._register_grid]. *)
Definition register_point (name : option string) (s : source_args)
    (x y z : hkey) (g : grid) : outcome :=
  match claim_name name g with
  | Err e => (add_source_ UnplacedSource g, Some e)
  | Ok g1 =>
    match x, y, z with
    | HList [i], HList [j], HList [k] =>
        (add_source_ (PointSource (i, j, k) (s_amplitude s) (source_signal g s)) g1, None)
    | _, _, _ => (add_source_ UnplacedSource g1, Some ValueError)
    end
  end.

(** sources.py 211-217: squared distances of the cells to the middle one. *)
Definition sqdist (p q : zpos) : R :=
  let '(a, b, c) := p in let '(x, y, z) := q in
  IZR ((a - x) ^ 2 + (b - y) ^ 2 + (c - z) ^ 2).
Definition line_distances (cells : list zpos) : list R :=
  map (fun p => sqdist p (nth (length cells / 2) cells (0, 0, 0)%Z)) cells.

(** [vect.max()] of a non-empty list of non-negative numbers. *)
Definition list_max0 (l : list R) : R := fold_right Rmax 0 l.

(** sources.py 219-221: the spatial profile. *)
Definition line_weights (v : list R) : list R :=
  map (fun d => exp (- (d ^ 2) / (2 * (/ 2 * list_max0 v) ^ 2))) v.
Definition line_profile (amp : R) (cells : list zpos) : list R :=
  let w := line_weights (line_distances cells) in
  map (fun x => x / Rsum w * amp) w.

(** sources.py 183-223: [LineSource._register_grid].  If all cells coincide
    the profile is 0/0 = NaN; the model refuses this with ValueError instead. *)
Definition register_line (name : option string) (s : source_args)
    (x y z : hkey) (g : grid) : outcome :=
  match claim_name name g with
  | Err e => (add_source_ UnplacedSource g, Some e)
  | Ok g1 =>
    match line_cells 2 (g_N g) x y z with
    | Err e => (add_source_ UnplacedSource g1, Some e)
    | Ok [] => (add_source_ UnplacedSource g1, Some IndexError)
    | Ok cells =>
        if Reqb (list_max0 (line_distances cells)) 0
        then (add_source_ UnplacedSource g1, Some ValueError)
        else (add_source_ (LineSource cells (line_profile (s_amplitude s) cells)
                                      (source_signal g s)) g1, None)
    end
  end.

(** Constructor arguments of PlaneSource (sources.py 347-369). *)
Record plane_args := mkPlane {
  pl_period : pynum; pl_amplitude : R; pl_phase : R; pl_polarization : string }.

(** sources.py 428-471: an index as a slice with start < stop. *)
Definition ordered (a b : Z) : Z * Z :=
  if (a <? b)%Z then (a, b) else if (b <? a)%Z then (b, a) else (a, a + 1)%Z.
Definition plane_slice (n : nat) (k : hkey) : res (Z * Z) :=
  match k with
  | HList [v] => Ok (ordered v (v + 1))
  | HList _ => Err ValueError
  | HSlice a b _ => Ok (ordered (match a with Some v => v | None => 0%Z end)
                                (match b with Some v => v | None => Z.of_nat n end))
  end.
Definition axis_letter (a : axis) : string :=
  match a with AX => "x" | AY => "y" | AZ => "z" end%string.
(** sources.py 485: "xyz".index(polarization). *)
Definition epol_of (pol : string) : res axis :=
  match String.index 0 pol "xyz" with
  | Some 0%nat => Ok AX | Some 1%nat => Ok AY | Some 2%nat => Ok AZ
  | _ => Err ValueError
  end.
(** sources.py 494-498. *)
Definition hpol_of (flat : axis -> bool) (epol : axis) : axis :=
  match epol with
  | AX => if flat AZ then AY else AZ
  | AY => if flat AZ then AX else AZ
  | AZ => if flat AY then AX else AY
  end.
(** sources.py 414-500: [PlaneSource._handle_slices]; the test of 473-476
    never fires, as no slice is empty. *)
Definition plane_place (N : shape3) (pol : string) (x y z : hkey) : res (zpos * zpos * axis * axis) :=
  let! sx := plane_slice (N AX) x in
  let! sy := plane_slice (N AY) y in
  let! sz := plane_slice (N AZ) z in
  let lo := (fst sx, fst sy, fst sz) in
  let hi := (snd sx, snd sy, snd sz) in
  let flat a := (plane_extent lo hi a =? 1)%Z in
  let! _ := ensure (length (filter flat [AX; AY; AZ]) =? 1)%nat ValueError in
  let! ep := epol_of pol in
  let! _ := ensure (negb (existsb (fun a => flat a && String.eqb pol (axis_letter a)) [AX; AY; AZ])) ValueError in
  Ok (lo, hi, ep, hpol_of flat ep).
(** sources.py 371-412: [PlaneSource._register_grid]. *)
Definition register_plane (name : option string) (s : plane_args)
    (x y z : hkey) (g : grid) : outcome :=
  match claim_name name g with
  | Err e => (add_source_ UnplacedSource g, Some e)
  | Ok g1 =>
    match plane_place (g_N g) (pl_polarization s) x y z with
    | Err e => (add_source_ UnplacedSource g1, Some e)
    | Ok (lo, hi, ep, hp) =>
        (add_source_ (PlaneSource lo hi ep hp (pl_amplitude s)
                        (handle_time (g_time_step g) (pl_period s)) (pl_phase s)) g1, None)
    end
  end.

(** ** [grid[key] = component] (fdtd/grid.py 358-375) *)
Inductive component :=
| CPeriodic (name : option string)
| CPML (name : option string) (a : R)
| CObject (name : option string) (eps : R) (cond : option R)
| CAnisotropic
| CDetector (k : det_kind) (name : option string)
| CPoint (name : option string) (s : source_args)
| CLine (name : option string) (s : source_args)
| CPlane (name : option string) (s : plane_args).

Definition register (c : component) (x y z : hkey) (g : grid) : outcome :=
  match c with
  | CPeriodic n => register_periodic n x y z g
  | CPML n a => register_pml n a x y z g
  | CObject n eps cond => register_object n eps cond x y z g
  | CAnisotropic => register_anisotropic g
  | CDetector k n => register_detector k n x y z g
  | CPoint n s => register_point n s x y z g
  | CLine n s => register_line n s x y z g
  | CPlane n s => register_plane n s x y z g
  end.

Definition setitem (key : list pykey) (c : component) (g : grid) : outcome :=
  match pad_key key with
  | Err e => (g, Some e)
  | Ok (x, y, z) =>
      register c (handle_key (g_spacing g) x) (handle_key (g_spacing g) y)
                 (handle_key (g_spacing g) z) g
  end.

(** A sequence of assignments that stops at the first exception. *)
Fixpoint setitems (l : list (list pykey * component)) (g : grid) : outcome :=
  match l with
  | [] => (g, None)
  | (k, c) :: r =>
      match setitem k c g with
      | (g', None) => setitems r g'
      | (g', Some e) => (g', Some e)
      end
  end.

(** boundaries.py 618-650: [DomainBorderPML]. *)
Definition int_slice (a b : option Z) : pykey :=
  KSlice (option_map PInt a) (option_map PInt b) None.
Definition default_pml_a : R := / 10 ^ 8.
Definition domain_border_pml (bc : nat) (g : grid) : outcome :=
  if ((g_N g AX <? bc * 2) || (g_N g AY <? bc * 2) || (g_N g AZ <? bc * 2))%nat
  then (g, Some IndexError)
  else
    let c := Z.of_nat bc in
    let low := int_slice (Some 0%Z) (Some c) in
    let high := int_slice (Some (- c)%Z) None in
    let mid := int_slice (Some c) (Some (- c)%Z) in
    let p := CPML None default_pml_a in
    setitems [ ([full_slice; full_slice; low], p);
               ([full_slice; full_slice; high], p);
               ([low; full_slice; mid], p);
               ([high; full_slice; mid], p);
               ([mid; low; mid], p);
               ([mid; high; mid], p) ] g.
