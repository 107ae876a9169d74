(** Vocabulary for stating the FDTD properties. *)
From Coq Require Import Reals ZArith String List Bool Lra Lia.
From Verif Require Import Base Model_FDTD.
Import ListNotations.
Open Scope R_scope.

(** A cell that exists in a grid of this shape. *)
Definition in_grid (N : shape3) (p : pos) : Prop := forall a, (coord a p < N a)%nat.

(** Sum of a quantity over the cells with lo <= index < hi along every axis. *)
Definition cells (lo hi : shape3) : list pos :=
  list_prod (list_prod (seq (lo AX) (hi AX - lo AX)) (seq (lo AY) (hi AY - lo AY)))
            (seq (lo AZ) (hi AZ - lo AZ)).
Definition box_sum (lo hi : shape3) (f : pos -> R) : R := Rsum (map f (cells lo hi)).

(** Sum over the three components. *)
Definition sum3 (f : axis -> R) : R := f AX + f AY + f AZ.

(** ** Closed cavities: every face is a wall or belongs to a periodic pair *)

(** Is the pair of faces across axis [a] joined by a periodic boundary?  (Across
    a direction that is one cell wide a periodic boundary has no effect.) *)
Definition is_periodic (a : axis) (b : boundary) : bool :=
  match b with Periodic a' => axis_eqb a a' | _ => false end.
Definition periodic_on (bs : list boundary) (N : shape3) (a : axis) : bool :=
  existsb (is_periodic a) bs && (1 <? N a)%nat.

(** Only (placed or inert) periodic boundaries. *)
Definition no_pml (bs : list boundary) : Prop :=
  Forall (fun b => match b with PMLb _ | UnplacedPML => False | _ => True end) bs.

(** The cells holding independent electric / magnetic values: a periodic
    boundary keeps the first electric layer equal to the last one and the last
    magnetic layer equal to the first one. *)
Definition E_lo (per : axis -> bool) : shape3 := fun a => if per a then 1%nat else 0%nat.
Definition E_hi (N : shape3) : shape3 := N.
Definition H_lo : shape3 := fun _ => 0%nat.
Definition H_hi (per : axis -> bool) (N : shape3) : shape3 :=
  fun a => if per a then (N a - 1)%nat else N a.

(** The two layers of a periodic pair agree. *)
Definition periodic_ok (per : axis -> bool) (N : shape3) (F : field) : Prop :=
  forall a, per a = true -> forall p c, in_grid N p -> coord a p = 0%nat ->
    F p c = F (setc a (N a - 1) p) c.

(** At a wall (non-periodic axis, more than one cell): at its low end the
    tangential electric and the normal magnetic field vanish, at its high end
    the tangential magnetic and the normal electric field. *)
Definition wall_E_ok (per : axis -> bool) (N : shape3) (E : field) : Prop :=
  forall a, per a = false -> (1 < N a)%nat -> forall p, in_grid N p ->
    (coord a p = 0%nat -> forall c, c <> a -> E p c = 0)
    /\ (coord a p = (N a - 1)%nat -> E p a = 0).
Definition wall_H_ok (per : axis -> bool) (N : shape3) (H : field) : Prop :=
  forall a, per a = false -> (1 < N a)%nat -> forall p, in_grid N p ->
    (coord a p = 0%nat -> H p a = 0)
    /\ (coord a p = (N a - 1)%nat -> forall c, c <> a -> H p c = 0).
Definition closed_E (per : axis -> bool) (N : shape3) (E : field) : Prop :=
  periodic_ok per N E /\ wall_E_ok per N E.
Definition closed_H (per : axis -> bool) (N : shape3) (H : field) : Prop :=
  periodic_ok per N H /\ wall_H_ok per N H.

Definition closed_grid (g : grid) : Prop :=
  closed_E (periodic_on (g_boundaries g) (g_N g)) (g_N g) (g_E g)
  /\ closed_H (periodic_on (g_boundaries g) (g_N g)) (g_N g) (g_H g).

(** No source changes the fields at step [q] or later. *)
Definition quiet_from (q0 : nat) (g : grid) : Prop :=
  forall q F, (q0 <= q)%nat ->
    fold_res (source_update_E (g_N g) q) (g_sources g) F = Ok F
    /\ fold_res (source_update_H (g_N g) q) (g_sources g) F = Ok F.

(** Pairing of two fields over the cells with independent magnetic / electric
    values. *)
Definition pair_H (per : axis -> bool) (N : shape3) (A B : field) : R :=
  box_sum H_lo (H_hi per N) (fun p => sum3 (fun c => A p c * B p c)).
Definition pair_E (per : axis -> bool) (N : shape3) (A B : field) : R :=
  box_sum (E_lo per) (E_hi N) (fun p => sum3 (fun c => A p c * B p c)).

(** The discrete energy between two consecutive states of a grid: the new
    electric energy eps E^2 plus mu times the old and new magnetic field. *)
Definition energy_between (g g' : grid) : R :=
  let per := periodic_on (g_boundaries g) (g_N g) in
  box_sum (E_lo per) (E_hi (g_N g)) (fun p => sum3 (fun c => g_E g' p c ^ 2 / g_ie g p c))
  + box_sum H_lo (H_hi per (g_N g)) (fun p => sum3 (fun c => g_H g p c * g_H g' p c / g_im g p c)).

(** The power absorbed by conducting material between two states. *)
Definition absorbed_between (g g' : grid) : R :=
  let per := periodic_on (g_boundaries g) (g_N g) in
  box_sum (E_lo per) (E_hi (g_N g)) (fun p => sum3 (fun c =>
    g_abs g p c * (g_E g p c + g_E g' p c) ^ 2 / g_ie g p c)).

(** Permittivity, permeability and 1 + absorption are nowhere degenerate. *)
Definition grid_material_ok (g : grid) : Prop :=
  forall p c, in_grid (g_N g) p -> g_ie g p c <> 0 /\ g_im g p c <> 0 /\ 1 + g_abs g p c <> 0.

(** Passive materials: relative permittivity and permeability between 1 and
    1/m, conductivity (absorption factor) not negative. *)
Definition passive (m : R) (g : grid) : Prop :=
  forall p c, in_grid (g_N g) p ->
    m <= g_ie g p c <= 1 /\ m <= g_im g p c <= 1 /\ 0 <= g_abs g p c.

(** Size of the fields. *)
Definition total_square (g : grid) : R :=
  let per := periodic_on (g_boundaries g) (g_N g) in
  box_sum (E_lo per) (E_hi (g_N g)) (fun p => sum3 (fun c => g_E g p c ^ 2))
  + box_sum H_lo (H_hi per (g_N g)) (fun p => sum3 (fun c => g_H g p c ^ 2)).

(** A cell that touches no face (faces of one-cell directions do not count). *)
Definition interior (N : shape3) (p : pos) : Prop :=
  forall a, (1 < N a)%nat -> (0 < coord a p < N a - 1)%nat.

(** Point and line sources standing on interior cells only. *)
Definition interior_source (N : shape3) (s : source) : Prop :=
  match s with
  | PointSource cell _ _ => forall p, resolve3 N cell = Ok p -> interior N p
  | LineSource cells _ _ =>
      forall cell p, In cell cells -> resolve3 N cell = Ok p -> interior N p
  | _ => False
  end.

(** ** Propagation *)

Definition dist1 (a b : nat) : nat := (a - b) + (b - a).

(** Neither placed nor broken boundary wraps axis [a]. *)
Definition no_wrap (a : axis) (bs : list boundary) : Prop :=
  Forall (fun b => is_periodic a b = false) bs.

(** A point or line source all of whose cells have index [x0] along [a]. *)
Definition source_in_plane (N : shape3) (a : axis) (x0 : nat) (s : source) : Prop :=
  match s with
  | PointSource cell _ _ => forall p, resolve3 N cell = Ok p -> coord a p = x0
  | LineSource cells _ _ =>
      forall cell p, In cell cells -> resolve3 N cell = Ok p -> coord a p = x0
  | _ => False
  end.

(** Two lists of sources that are the same except that either may have
    additional sources in the plane [x0]. *)
Inductive sources_match (N : shape3) (a : axis) (x0 : nat) : list source -> list source -> Prop :=
| sm_nil : sources_match N a x0 [] []
| sm_same s l1 l2 : sources_match N a x0 l1 l2 -> sources_match N a x0 (s :: l1) (s :: l2)
| sm_left s l1 l2 : source_in_plane N a x0 s ->
    sources_match N a x0 l1 l2 -> sources_match N a x0 (s :: l1) l2
| sm_right s l1 l2 : source_in_plane N a x0 s ->
    sources_match N a x0 l1 l2 -> sources_match N a x0 l1 (s :: l2).

(** Two simulations that differ at most in cells with index [x0] along [a]:
    in fields, materials and sources there. *)
Definition differ_in_plane (a : axis) (x0 : nat) (g1 g2 : grid) : Prop :=
  g_N g1 = g_N g2 /\ g_spacing g1 = g_spacing g2 /\ g_courant g1 = g_courant g2
  /\ g_steps g1 = g_steps g2 /\ g_boundaries g1 = g_boundaries g2
  /\ sources_match (g_N g1) a x0 (g_sources g1) (g_sources g2)
  /\ forall p c, in_grid (g_N g1) p -> coord a p <> x0 ->
       g_E g1 p c = g_E g2 p c /\ g_H g1 p c = g_H g2 p c /\ g_abs g1 p c = g_abs g2 p c
       /\ g_ie g1 p c = g_ie g2 p c /\ g_im g1 p c = g_im g2 p c.

(** The memories of two PMLs agree on the local cells of [far] grid cells. *)
Definition pml_agree (far : pos -> Prop) (N : shape3) (b1 b2 : boundary) : Prop :=
  match b1, b2 with
  | PMLb p1, PMLb p2 =>
      p_axis p1 = p_axis p2 /\ p_high p1 = p_high p2 /\ p_thick p1 = p_thick p2
      /\ p_bE p1 = p_bE p2 /\ p_cE p1 = p_cE p2 /\ p_bH p1 = p_bH p2 /\ p_cH p1 = p_cH p2
      /\ (forall q x c, far (pml_cell N p1 q) ->
            p_psiE p1 x q c = p_psiE p2 x q c /\ p_psiH p1 x q c = p_psiH p2 x q c)
  | _, _ => b1 = b2
  end.

(** Same construction: everything except fields, PML memory and records. *)
Definition same_setup (g1 g2 : grid) : Prop :=
  g_N g1 = g_N g2 /\ g_spacing g1 = g_spacing g2 /\ g_courant g1 = g_courant g2
  /\ g_abs g1 = g_abs g2 /\ g_ie g1 = g_ie g2 /\ g_im g1 = g_im g2.

(** The divergence of the magnetic field at a cell; differences to neighbours
    outside the grid are left out. *)
Definition div_H (N : shape3) (H : field) (p : pos) : R :=
  sum3 (fun a => if (S (coord a p) <? N a)%nat
                 then H (setc a (S (coord a p)) p) a - H p a else 0).

(** ** Superposition *)

(** Multiplying a source by a number. *)
Definition scale_source (k : R) (s : source) : source :=
  match s with
  | PointSource cell amp sg => PointSource cell (k * amp) sg
  | LineSource cells prof sg => LineSource cells (map (Rmult k) prof) sg
  | PlaneSource lo hi ep hp amp per ph => PlaneSource lo hi ep hp (k * amp) per ph
  | UnplacedSource => UnplacedSource
  end.

(** A point or line source. *)
Definition additive (s : source) : Prop :=
  match s with PointSource _ _ _ | LineSource _ _ _ => True | _ => False end.

(** Field [F3] is a F1 + b F2 on the grid. *)
Definition superposed (N : shape3) (a b : R) (F1 F2 F3 : field) : Prop :=
  forall p c, in_grid N p -> F3 p c = a * F1 p c + b * F2 p c.

(** Boundaries of the combined simulation: the same boundaries, the memory of a
    PML combined likewise. *)
Definition superposed_boundary (N : shape3) (a b : R) (b1 b2 b3 : boundary) : Prop :=
  match b1, b2, b3 with
  | PMLb p1, PMLb p2, PMLb p3 =>
      (p_axis p1 = p_axis p3 /\ p_high p1 = p_high p3 /\ p_thick p1 = p_thick p3
       /\ p_bE p1 = p_bE p3 /\ p_cE p1 = p_cE p3 /\ p_bH p1 = p_bH p3 /\ p_cH p1 = p_cH p3)
      /\ (p_axis p2 = p_axis p3 /\ p_high p2 = p_high p3 /\ p_thick p2 = p_thick p3
       /\ p_bE p2 = p_bE p3 /\ p_cE p2 = p_cE p3 /\ p_bH p2 = p_bH p3 /\ p_cH p2 = p_cH p3)
      /\ (forall x q c, in_grid N (pml_cell N p3 q) ->
            p_psiE p3 x q c = a * p_psiE p1 x q c + b * p_psiE p2 x q c
            /\ p_psiH p3 x q c = a * p_psiH p1 x q c + b * p_psiH p2 x q c)
  | PMLb _, _, _ | _, PMLb _, _ | _, _, PMLb _ => False
  | _, _, _ => b1 = b3 /\ b2 = b3
  end.
Inductive superposed_boundaries (N : shape3) (a b : R)
  : list boundary -> list boundary -> list boundary -> Prop :=
| sb_nil : superposed_boundaries N a b [] [] []
| sb_cons b1 b2 b3 l1 l2 l3 : superposed_boundary N a b b1 b2 b3 ->
    superposed_boundaries N a b l1 l2 l3 ->
    superposed_boundaries N a b (b1 :: l1) (b2 :: l2) (b3 :: l3).

(** Grid [g3] is built like [g1] and [g2], carries both sources (scaled by a
    and b) and starts in the combined state. *)
Definition superposition (a b : R) (g1 g2 g3 : grid) : Prop :=
  same_setup g1 g3 /\ same_setup g2 g3
  /\ g_steps g1 = g_steps g3 /\ g_steps g2 = g_steps g3
  /\ Forall additive (g_sources g1) /\ Forall additive (g_sources g2)
  /\ g_sources g3 = map (scale_source a) (g_sources g1) ++ map (scale_source b) (g_sources g2)
  /\ superposed_boundaries (g_N g3) a b (g_boundaries g1) (g_boundaries g2) (g_boundaries g3)
  /\ superposed (g_N g3) a b (g_E g1) (g_E g2) (g_E g3)
  /\ superposed (g_N g3) a b (g_H g1) (g_H g2) (g_H g3).

(** ** Simulation life cycle *)

Definition is_ok {A} (x : res A) : bool := match x with Ok _ => true | Err _ => false end.

(** All fields are zero. *)
Definition resting (g : grid) : Prop :=
  forall p c, in_grid (g_N g) p -> g_E g p c = 0 /\ g_H g p c = 0.

(** Not a plane source (plane sources overwrite the fields). *)
Definition soft (s : source) : Prop := match s with PlaneSource _ _ _ _ _ _ _ => False | _ => True end.

(** What a detector holds, as plain numbers. *)
Definition vec3 (v : vec) : R * R * R := (v AX, v AY, v AZ).
Definition recordings (d : detector) : list (list (R * R * R)) * list (list (R * R * R)) :=
  match d with
  | FieldDetector _ Es Hs => (map (map vec3) Es, map (map vec3) Hs)
  | _ => ([], [])
  end.

(** A hanning pulse that is over at step [q0]. *)
Definition pulse_over (N : shape3) (q0 : nat) (s : source) : Prop :=
  match s with
  | PointSource cell _ (Hanning f dt cy) =>
      (exists p, resolve3 N cell = Ok p) /\ cy <> 0 /\ f * dt / cy <> 0
      /\ (hanning_end f dt cy <= Z.of_nat q0)%Z
  | LineSource cells _ (Hanning f dt cy) =>
      (forall cell, In cell cells -> exists p, resolve3 N cell = Ok p) /\ cy <> 0 /\ f * dt / cy <> 0
      /\ (hanning_end f dt cy <= Z.of_nat q0)%Z
  | _ => False
  end.

(** Two simulations that are equal except for the fields and materials of one
    cell. *)
Definition differ_at_cell (p0 : pos) (g1 g2 : grid) : Prop :=
  g_N g1 = g_N g2 /\ g_spacing g1 = g_spacing g2 /\ g_courant g1 = g_courant g2
  /\ g_steps g1 = g_steps g2 /\ g_boundaries g1 = g_boundaries g2
  /\ g_sources g1 = g_sources g2
  /\ forall p c, in_grid (g_N g1) p -> p <> p0 ->
       g_E g1 p c = g_E g2 p c /\ g_H g1 p c = g_H g2 p c /\ g_abs g1 p c = g_abs g2 p c
       /\ g_ie g1 p c = g_ie g2 p c /\ g_im g1 p c = g_im g2 p c.

(** An index the code can use on a direction with [n] cells (negative indices
    count from the end). *)
Definition index_ok (n : nat) (z : Z) : Prop := (- Z.of_nat n <= z < Z.of_nat n)%Z.
Definition cell_ok (N : shape3) (c : zpos) : Prop :=
  let '(x, y, z) := c in index_ok (N AX) x /\ index_ok (N AY) y /\ index_ok (N AZ) z.

(** A component that can take part in a step. *)
Definition boundary_ready (N : shape3) (b : boundary) : Prop :=
  match b with
  | Periodic _ | InertPeriodic => True
  | PMLb pm => (p_thick pm <= N (p_axis pm))%nat
  | UnplacedPML => False
  end.
Definition detector_ready (N : shape3) (d : detector) : Prop :=
  match d with
  | FieldDetector cells _ _ => Forall (cell_ok N) cells
  | CurrentDetector cells _ =>
      (* a current reading also uses the cells one below along every axis *)
      Forall (fun c : zpos => let '(x, y, z) := c in
                cell_ok N (x, y, z) /\ cell_ok N (x - 1, y - 1, z - 1)%Z) cells
  | UnplacedDetector => False
  end.
(** A continuous signal needs a period of at least one step, a hanning pulse
    non-zero parameters; the ricker signal of a point source only ever works
    once it has died out. *)
Definition signal_ready (point : bool) (q : nat) (s : signal) : Prop :=
  match s with
  | Continuous period _ => period <> 0%Z
  | Hanning f dt cycle => cycle <> 0 /\ f * dt / cycle <> 0
  | Ricker gpw _ => point = true -> gpw * 6 <= INR q
  end.
Definition source_ready (N : shape3) (q : nat) (s : source) : Prop :=
  match s with
  | PointSource cell _ sg => signal_ready true q sg /\ cell_ok N cell
  | LineSource cells profile sg =>
      signal_ready false q sg /\ Forall (cell_ok N) (firstn (length profile) cells)
  | PlaneSource lo hi _ _ _ period _ =>
      (* the slices are one wide or have all their cells on the grid *)
      period <> 0%Z /\ forall a, (zcoord a hi - zcoord a lo = 1)%Z
        \/ (zcoord a hi - zcoord a lo = Z.of_nat (clip (N a) (zcoord a hi) - clip (N a) (zcoord a lo)))%Z
  | UnplacedSource => False
  end.

(** The values [v] are the field at the listed cells. *)
Definition reads (N : shape3) (F : field) (cells : list zpos) (v : list vec) : Prop :=
  Forall2 (fun cell x => exists p, resolve3 N cell = Ok p /\ x = F p) cells v.
