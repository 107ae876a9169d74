(** nidn/fdtd/visualization.py 27-328: [visualize], the picture of a plane of the
    grid ("visualization").

    Simplifications: a picture is the energy image, the items drawn over it and the
    limit of the colour scale; colours are the role of an item, line widths, the
    legend and the animation are left out; what an unfinished picture shows when an
    exception is raised is not modelled.  Soft sources (Model_Soft.v) are not
    drawn. *)
From Coq Require Import Reals ZArith String Ascii List Bool Arith.
From Verif Require Import Base Model_FDTD Model_Register Model_Runs Model_Output.
Import ListNotations.
Open Scope list_scope.
Open Scope R_scope.

(** ** Objects *)

(** objects.py 50-60: the slices an object has on the axes after its
    registration; those after the first that raised are missing. *)
Definition object_slices (N : shape3) (x y z : hkey) (a : axis) : option (Z * Z) :=
  match object_slice (N AX) x with
  | Err _ => None
  | Ok sx =>
    match a, object_slice (N AY) y with
    | AX, _ => Some sx
    | _, Err _ => None
    | AY, Ok sy => Some sy
    | AZ, Ok _ => match object_slice (N AZ) z with Ok sz => Some sz | Err _ => None end
    end
  end.
(** A session together with the objects in [grid.objects]. *)
Record studio := mkStudio { st_session : session; st_objs : list (axis -> option (Z * Z)) }.
Definition st_grid (st : studio) : grid := ss_grid (st_session st).
(** The object a registration appends to [grid.objects], even if it raises later
    (objects.py 49). *)
Definition appended_obj (key : list pykey) (c : component) (g : grid) : list (axis -> option (Z * Z)) :=
  match pad_key key, c with
  | Ok (x, y, z), CObject n _ _ =>
      match claim_name n g with
      | Ok _ => let h := handle_key (g_spacing g) in [object_slices (g_N g) (h x) (h y) (h z)]
      | Err _ => [fun _ => None]
      end
  | _, _ => []
  end.
(** Model_Output.v [perform] with the list of objects. *)
Definition perform_in (o : op) (st : studio) : option (studio * option failure) :=
  match perform o (st_session st) with
  | None => None
  | Some (s, e) =>
      Some (mkStudio s (st_objs st ++ match o with Assign key c => appended_obj key c (st_grid st) | _ => [] end), e)
  end.

(** ** The picture *)

(** The colours: objcolor, pmlcolor, pbcolor, srccolor, detcolor. *)
Inductive role := ObjRole | PmlRole | PbRole | SrcRole | DetRole.
(** Coordinates are horizontal, vertical; the pixel in row r and column c is
    centred at (c, r). *)
Inductive item :=
| Lines (r : role) (pts : list (option (R * R)))          (* [None]: nan, a gap *)
| Marker (r : role) (at_ : R * R)
| Patch (r : role) (left_ top width height : R).
Record picture := mkPicture {
  pic_rows : nat; pic_cols : nat; pic_pixel : nat -> nat -> R;
  pic_items : list item;
  pic_vmax : option R }. (* [norm="log"]: vmax *)

(** An argument x, y or z. *)
Inductive coordinate := NoCoordinate | IntCoordinate (z : Z) | OtherCoordinate.
Definition given (c : coordinate) : bool := match c with NoCoordinate => false | _ => true end.
Definition is_int (c : coordinate) : bool := match c with IntCoordinate _ => true | _ => false end.
Definition the_int (c : coordinate) : Z := match c with IntCoordinate z => z | _ => 0%Z end.

(** 86-109 *)
Definition choose_plane (x y z : coordinate) : res (axis * Z) :=
  if given x then
    if negb (is_int x) then Err ValueError
    else if given y || given z then Err ValueError else Ok (AX, the_int x)
  else if given y then
    if negb (is_int y) then Err ValueError
    else if given z || given x then Err ValueError else Ok (AY, the_int y)
  else if given z then
    if negb (is_int z) then Err ValueError
    else if given x || given y then Err ValueError else Ok (AZ, the_int z)
  else Err ValueError.

(** 120-143: the axis along the rows ([Nx], vertical) and the one along the columns
    ([Ny], horizontal) *)
Definition row_axis (a : axis) : axis := match a with AX => AY | AY => AZ | AZ => AX end.
Definition col_axis (a : axis) : axis := match a with AX => AZ | AY => AX | AZ => AY end.
Definition cell_at (a : axis) (k r c : nat) : pos :=
  match a with AX => (k, r, c) | AY => (c, k, r) | AZ => (r, c, k) end.
(** 119 *)
Definition energy (g : grid) (p : pos) : R :=
  Rsum (map (fun c => g_E g p c ^ 2 + g_H g p c ^ 2) [AX; AY; AZ]).

(** [[l[0], l[-1]]] for the coordinates l along an axis *)
Definition ends (a : axis) (cells : list zpos) : res (Z * Z) :=
  match cells with [] => Err IndexError | c :: r => Ok (zcoord a c, zcoord a (last r c)) end.
Definition point (c r : Z) : option (R * R) := Some (IZR c, IZR r).

(** 146-208: one source.  156-165 take the y-location for the columns of a
    zx-projection. *)
Definition point_col_axis (a : axis) : axis := match a with AX => AZ | AY => AY | AZ => AY end.
Definition squeeze (lo hi : Z) : Z * Z := if (lo + 1 <? hi)%Z then (lo, hi) else (lo, lo).
Definition draw_source (N : shape3) (a : axis) (s : source)
    (im : (nat -> nat -> R) * list item) : res ((nat -> nat -> R) * list item) :=
  let (px, items) := im in
  match s with
  | LineSource cells _ _ =>
      let! r := ends (row_axis a) cells in
      let! c := ends (col_axis a) cells in
      Ok (px, items ++ [Lines SrcRole [point (fst c) (fst r); point (snd c) (snd r)]])
  | PointSource cell _ _ =>
      let r := zcoord (row_axis a) cell in
      let c := zcoord (point_col_axis a) cell in
      let! i := resolve (N (row_axis a)) r in
      let! j := resolve (N (col_axis a)) c in
      Ok (fun i' j' => if (i' =? i)%nat && (j' =? j)%nat then 0 else px i' j',
          items ++ [Marker SrcRole (IZR c - / 2, IZR r - / 2)])
  | PlaneSource lo hi _ _ _ _ _ =>
      let r := squeeze (zcoord (row_axis a) lo) (zcoord (row_axis a) hi) in
      let c := squeeze (zcoord (col_axis a) lo) (zcoord (col_axis a) hi) in
      Ok (px, items ++ [Patch SrcRole (IZR (fst c) - / 2) (IZR (fst r) - / 2)
                                (IZR (snd c - fst c)) (IZR (snd r - fst r))])
  | UnplacedSource => Err AttributeError
  end.

(** 211-232: one detector.  (A block without any cell along some axis raises
    IndexError; the code draws it if this is not an axis of the picture.) *)
Definition det_cells (d : detector) : res (list zpos) :=
  match d with
  | FieldDetector cells _ _ => Ok cells
  | CurrentDetector cells _ => Ok cells
  | UnplacedDetector => Err AttributeError
  end.
Definition draw_detector (a : axis) (d : (option string * det_kind) * detector) (items : list item) : res (list item) :=
  let! cells := det_cells (snd d) in
  let! r := ends (row_axis a) cells in
  let! c := ends (col_axis a) cells in
  Ok (items ++ [Lines DetRole
    match snd (fst d) with
    | DBlock => [point (fst c) (fst r); point (snd c) (fst r); point (snd c) (snd r); point (fst c) (snd r); point (fst c) (fst r)]
    | _ => [point (fst c) (fst r); point (snd c) (snd r)]
    end]).

(** 235-284: one boundary.  A PML whose registration raised has thickness 0
    (boundaries.py 239) and a periodic boundary whose registration raised before its
    class was set is none of the classes; neither can be seen. *)
Definition draw_boundary (N : shape3) (a : axis) (b : boundary) : list item :=
  let nr := INR (N (row_axis a)) in
  let nc := INR (N (col_axis a)) in
  match b with
  | Periodic d =>
      if axis_eqb d (row_axis a) then
        [Lines PbRole [Some (- / 2, - / 2); Some (nc - / 2, - / 2); None; Some (- / 2, nr - / 2); Some (nc - / 2, nr - / 2)]]
      else if axis_eqb d (col_axis a) then
        [Lines PbRole [Some (- / 2, - / 2); Some (- / 2, nr - / 2); None; Some (nc - / 2, - / 2); Some (nc - / 2, nr - / 2)]]
      else []
  | PMLb pm =>
      let t := INR (p_thick pm) in
      if axis_eqb (p_axis pm) (col_axis a) then
        [if p_high pm then Patch PmlRole (nc - / 2 - t) (- / 2) t nr else Patch PmlRole (- / 2) (- / 2) t nr]
      else if axis_eqb (p_axis pm) (row_axis a) then
        [if p_high pm then Patch PmlRole (- / 2) (nr - t - / 2) nc t else Patch PmlRole (- / 2) (- / 2) nc t]
      else []
  | InertPeriodic | UnplacedPML => []
  end.

(** 286-306: one object *)
Definition draw_object (a : axis) (o : axis -> option (Z * Z)) (items : list item) : res (list item) :=
  match o (row_axis a), o (col_axis a) with
  | Some r, Some c =>
      let low p := IZR (Z.min (fst p) (snd p)) in
      let high p := IZR (Z.max (fst p) (snd p)) in
      Ok (items ++ [Patch ObjRole (low c - / 2) (low r - / 2) (high c - low c) (high r - low r)])
  | _, _ => Err AttributeError
  end.

(** 311: [grid_energy.max()] *)
Definition pixels (nr nc : nat) (px : nat -> nat -> R) : list R :=
  flat_map (fun r => map (px r) (seq 0 nc)) (seq 0 nr).
Definition greatest (l : list R) : R := match l with [] => 0 | x :: r => fold_left Rmax r x end.

(** 27-328.  [grad] tells whether the fields require gradients, in which case the
    conversion of line 312 raises (backend.py 168-173). *)
Definition visualize (x y z : coordinate) (norm : string) (grad : bool) (st : studio) : res picture :=
  let g := st_grid st in
  if negb (existsb (String.eqb norm) ["linear"; "lin"; "log"]%string) then Err ValueError else
  let! ak := choose_plane x y z in
  let a := fst ak in
  let nr := g_N g (row_axis a) in
  let nc := g_N g (col_axis a) in
  let! _ := ensure ((1 <? nr) && (1 <? nc))%nat AssertionError in
  let! k := resolve (g_N g a) (snd ak) in
  let! drawn := fold_res (draw_source (g_N g) a) (g_sources g) (fun r c => energy g (cell_at a k r c), []) in
  let! i1 := fold_res (draw_detector a) (combine (ss_dets (st_session st)) (g_detectors g)) (snd drawn) in
  let i2 := i1 ++ flat_map (draw_boundary (g_N g) a) (g_boundaries g) in
  let! i3 := fold_res (draw_object a) (st_objs st) i2 in
  let! _ := ensure (negb grad) RuntimeError in
  Ok (mkPicture nr nc (fst drawn) i3
        (if String.eqb norm "log" then Some (greatest (pixels nr nc (fst drawn)) + / 10 ^ 4) else None)).

(** ** Frames *)

(** 322-323: [f"file{str(index).zfill(4)}.png"] *)
Fixpoint zeros (n : nat) : string := match n with O => "" | S m => String "0"%char (zeros m) end.
Definition zfill (n : nat) (s : string) : string := (zeros (n - String.length s) ++ s)%string.
Definition frame_name (index : option nat) : string :=
  ("file" ++ zfill 4 (match index with Some n => dec n | None => "None" end) ++ ".png")%string.
(** [grid.visualize(..., save=True, folder=folder, index=index)]; the folder is an
    absolute place.  [os.path.join(None, …)] raises TypeError. *)
Definition save_frame (x y z : coordinate) (norm : string) (grad : bool) (folder : option place) (index : option nat)
    (st : studio) : studio * option failure :=
  match visualize x y z norm grad st with
  | Err e => (st, Some (Raised e))
  | Ok _ =>
    match folder with
    | None => (st, Some (Raised TypeError))
    | Some f =>
      let s := st_session st in
      match ss_files s f, ss_files s (frame_name index :: f) with
      | Some Dir, Some Dir => (st, Some FileError)
      | Some Dir, _ =>
          (mkStudio (mkSession (ss_grid s) (ss_dets s) (ss_folder s) (ss_sim s) (ss_cwd s)
                               (put (frame_name index :: f) (File (Some Frame)) (ss_files s))) (st_objs st), None)
      | _, _ => (st, Some FileError)
      end
    end
  end.
(** The usual loop: [for i in range(i0, i0 + n): grid.run(1); grid.visualize(…,
    index=i, save=True, folder=grid.folder)]; it ends with the first exception. *)
Fixpoint film (x y z : coordinate) (norm : string) (i0 n : nat) (st : studio) : option (studio * option failure) :=
  match n with
  | O => Some (st, None)
  | S m =>
      match perform_in (Run 1) st with
      | None => None
      | Some (st1, _) =>
          match save_frame x y z norm false (ss_folder (st_session st1)) (Some i0) st1 with
          | (st2, Some e) => Some (st2, Some e)
          | (st2, None) => film x y z norm (S i0) m st2
          end
      end
  end.
