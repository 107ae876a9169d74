(** Vocabulary for C76 and C77. *)
From Coq Require Import Reals ZArith String List Bool Arith.
From Verif Require Import Base Model_FDTD Model_Register Model_Runs Model_Output Model_Visualize.
Import ListNotations.
Open Scope R_scope.

(** Exactly one of x, y, z is given, as an int: the plane [k] across axis [a]. *)
Definition asks (x y z : coordinate) (a : axis) (k : Z) : Prop :=
  let only b := if axis_eqb a b then IntCoordinate k else NoCoordinate in
  x = only AX /\ y = only AY /\ z = only AZ.
Definition known_norm (norm : string) : Prop := (norm = "linear" \/ norm = "lin" \/ norm = "log")%string.
(** An index of n entries, and the entry it names (negative ones count from the
    end). *)
Definition names_index (n : nat) (z : Z) (i : nat) : Prop :=
  (i < n)%nat /\ (z = Z.of_nat i \/ z = Z.of_nat i - Z.of_nat n)%Z.
Definition an_index (n : nat) (z : Z) : Prop := (- Z.of_nat n <= z < Z.of_nat n)%Z.

(** A rectangle holds the centre of the pixel in row r and column c. *)
Definition holds_pixel (rect : R * R * R * R) (r c : nat) : Prop :=
  let '(l, t, w, h) := rect in l <= INR c <= l + w /\ t <= INR r <= t + h.
(** The rectangles, lines and markers of a colour, in the order drawn. *)
Definition role_eqb (a b : role) : bool :=
  match a, b with
  | ObjRole, ObjRole | PmlRole, PmlRole | PbRole, PbRole | SrcRole, SrcRole | DetRole, DetRole => true
  | _, _ => false
  end.
Definition rects (o : role) (l : list item) : list (R * R * R * R) :=
  flat_map (fun i => match i with Patch o' x y w h => if role_eqb o o' then [(x, y, w, h)] else [] | _ => [] end) l.
Definition curves (o : role) (l : list item) : list (list (option (R * R))) :=
  flat_map (fun i => match i with Lines o' p => if role_eqb o o' then [p] else [] | _ => [] end) l.
Definition markers (o : role) (l : list item) : list (R * R) :=
  flat_map (fun i => match i with Marker o' p => if role_eqb o o' then [p] else [] | _ => [] end) l.

(** The energy in a cell. *)
Definition energy_in (g : grid) (p : pos) : R :=
  g_E g p AX ^ 2 + g_E g p AY ^ 2 + g_E g p AZ ^ 2 + g_H g p AX ^ 2 + g_H g p AY ^ 2 + g_H g p AZ ^ 2.
(** The sources by class. *)
Definition point_sources (l : list source) : list zpos :=
  flat_map (fun s => match s with PointSource c _ _ => [c] | _ => [] end) l.
Definition line_sources (l : list source) : list (list zpos) :=
  flat_map (fun s => match s with LineSource c _ _ => [c] | _ => [] end) l.
Definition plane_sources (l : list source) : list (zpos * zpos) :=
  flat_map (fun s => match s with PlaneSource lo hi _ _ _ _ _ => [(lo, hi)] | _ => [] end) l.
(** The pixel set to 0 for a point source: that of its cell, but for a
    zx-projection the column is taken from the y-location. *)
Definition blanks (N : shape3) (a : axis) (cell : zpos) (r c : nat) : Prop :=
  match a with
  | AX => names_index (N AY) (zcoord AY cell) r /\ names_index (N AZ) (zcoord AZ cell) c
  | AY => names_index (N AZ) (zcoord AZ cell) r /\ names_index (N AX) (zcoord AY cell) c
  | AZ => names_index (N AX) (zcoord AX cell) r /\ names_index (N AY) (zcoord AY cell) c
  end.
(** What [visualize] needs of a source, a detector, an object. *)
Definition source_drawable (N : shape3) (a : axis) (s : source) : Prop :=
  match s with
  | PointSource cell _ _ => exists r c, blanks N a cell r c
  | LineSource cells _ _ => cells <> []
  | PlaneSource _ _ _ _ _ _ _ => True
  | UnplacedSource => False
  end.
Definition cells_read (d : detector) : option (list zpos) :=
  match d with FieldDetector c _ _ | CurrentDetector c _ => Some c | UnplacedDetector => None end.
Definition detector_drawable (d : detector) : Prop := exists c r, cells_read d = Some (c :: r).
Definition object_drawable (a : axis) (o : axis -> option (Z * Z)) : Prop := forall b, b <> a -> o b <> None.

(** The axes of the picture of a plane across [a]. *)
Definition down (a : axis) : axis := match a with AX => AY | AY => AZ | AZ => AX end.
Definition across (a : axis) : axis := match a with AX => AZ | AY => AX | AZ => AY end.
(** The centre of the pixel of a cell. *)
Definition spot (a : axis) (p : zpos) : option (R * R) :=
  Some (IZR (zcoord (across a) p), IZR (zcoord (down a) p)).
(** A curve from the pixel of a cell to that of another. *)
Definition joins (a : axis) (p q : zpos) (curve : list (option (R * R))) : Prop := curve = [spot a p; spot a q].
(** The outline of the rectangle with the pixels of two cells as opposite
    corners. *)
Definition outlines (a : axis) (p q : zpos) (curve : list (option (R * R))) : Prop :=
  exists x0 y0 x1 y1, spot a p = Some (x0, y0) /\ spot a q = Some (x1, y1) /\
  curve = [Some (x0, y0); Some (x1, y0); Some (x1, y1); Some (x0, y1); Some (x0, y0)].
(** A position lies within that rectangle. *)
Definition within (a : axis) (p q x : zpos) : Prop :=
  forall b, b <> a -> (zcoord b p <= zcoord b x <= zcoord b q)%Z.

(** Histories in which nothing raises. *)
Fixpoint play_studio (l : list op) (st : studio) : option studio :=
  match l with
  | [] => Some st
  | o :: r => match perform_in o st with Some (st', None) => play_studio r st' | _ => None end
  end.
(** The place of a frame. *)
Definition frame (folder : place) (i : nat) : place := frame_name (Some i) :: folder.
(** The digit of a number below ten, and the last four digits of a number ("%04d"
    of a number below 10000). *)
Definition digit (n : nat) : Ascii.ascii := Ascii.ascii_of_nat (48 + n).
Definition four_digits (n : nat) : string :=
  String (digit (n / 1000 mod 10)) (String (digit (n / 100 mod 10)) (String (digit (n / 10 mod 10)) (String (digit (n mod 10)) EmptyString))).
(** Nothing but the files differs. *)
Definition only_files (st st' : studio) : Prop :=
  st_grid st' = st_grid st /\ st_objs st' = st_objs st /\ ss_dets (st_session st') = ss_dets (st_session st)
  /\ ss_folder (st_session st') = ss_folder (st_session st) /\ ss_sim (st_session st') = ss_sim (st_session st)
  /\ ss_cwd (st_session st') = ss_cwd (st_session st).
