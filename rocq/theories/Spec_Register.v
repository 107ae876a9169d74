(** Vocabulary for stating the properties of component registration. *)
From Coq Require Import Reals ZArith String List Bool Lra Lia.
From Verif Require Import Base Model_Units Model_FDTD Model_Register Spec_FDTD.
Import ListNotations.
Open Scope R_scope.

(** The name a component asks for. *)
Definition comp_name (c : component) : option string :=
  match c with
  | CPeriodic n | CPML n _ | CObject n _ _ | CDetector _ n | CPoint n _ | CLine n _ | CPlane n _ => n
  | CAnisotropic => None
  end.

(** Assignments whose exceptions are caught: every one of them is carried out. *)
Definition assign_all (l : list (list pykey * component)) (g : grid) : grid :=
  fold_left (fun g kc => fst (setitem (fst kc) (snd kc) g)) l g.

(** Kinds of component. *)
Definition is_vital (c : component) : Prop :=
  match c with CPML _ _ | CDetector _ _ | CPoint _ _ | CLine _ _ | CPlane _ _ => True | _ => False end.

(** The state a user can read off a grid: everything but the number of objects
    and the attribute names. *)
Definition same_physics (g1 g2 : grid) : Prop :=
  g_N g1 = g_N g2 /\ g_spacing g1 = g_spacing g2 /\ g_courant g1 = g_courant g2
  /\ g_time_step g1 = g_time_step g2 /\ g_E g1 = g_E g2 /\ g_H g1 = g_H g2
  /\ g_abs g1 = g_abs g2 /\ g_ie g1 = g_ie g2 /\ g_im g1 = g_im g2 /\ g_steps g1 = g_steps g2
  /\ g_sources g1 = g_sources g2 /\ g_boundaries g1 = g_boundaries g2
  /\ g_detectors g1 = g_detectors g2.

(** The cells lo <= p < hi. *)
Definition in_cells (lo hi p : pos) : Prop :=
  forall a, (coord a lo <= coord a p < coord a hi)%nat.

(** Half-open range of a Python slice start:stop on [n] items (negative bounds
    count from the end, missing ones are the ends). *)
Definition slice_range (n : nat) (start stop : option Z) (lo hi : nat) : Prop :=
  Z.of_nat lo = match start with
                | None => 0 | Some a => if a <? 0 then Z.of_nat n + a else a end%Z
  /\ Z.of_nat hi = match stop with
                | None => Z.of_nat n | Some b => if b <? 0 then Z.of_nat n + b else b end%Z
  /\ (lo <= hi <= n)%nat.

(** An index within the grid: numbers and slice bounds are at most the size of
    the grid, negative ones counting from the end. *)
Definition usual_index (n : nat) (k : hkey) : Prop :=
  match k with
  | HList l => forall v, In v l -> index_ok n v
  | HSlice a b _ => forall v, a = Some v \/ b = Some v -> (- Z.of_nat n <= v <= Z.of_nat n)%Z
  end.
(** A number or a list, as opposed to a slice. *)
Definition numeric (k : pykey) : bool := match k with KSlice _ _ _ => false | _ => true end.
(** Every entry of the key is within the grid, and at most one of them is not a
    slice. *)
Definition within_grid (g : grid) (key : list pykey) : Prop := forall x y z, pad_key key = Ok (x, y, z) ->
  usual_index (g_N g AX) (handle_key (g_spacing g) x) /\ usual_index (g_N g AY) (handle_key (g_spacing g) y)
  /\ usual_index (g_N g AZ) (handle_key (g_spacing g) z) /\ (length (filter numeric [x; y; z]) <= 1)%nat.

(** The PML that stands on a face. *)
Definition is_pml_on (ax : axis) (high : bool) (t : nat) (b : boundary) : Prop :=
  exists pm, b = PMLb pm /\ p_axis pm = ax /\ p_high pm = high /\ p_thick pm = t.

(** ** Faces *)

(** A boundary acting on a face. *)
Definition on_face (ax : axis) (high : bool) (b : boundary) : bool :=
  match b with
  | Periodic a => axis_eqb a ax
  | PMLb pm => axis_eqb (p_axis pm) ax && Bool.eqb (p_high pm) high
  | _ => false
  end.
Definition count_on (ax : axis) (high : bool) (bs : list boundary) : nat :=
  length (filter (on_face ax high) bs).

(** ** Source shapes *)

(** The value the source adds at step [q] divided by its amplitude. *)
Definition bounded_by_amplitude (amp : R) (v : res R) : Prop :=
  match v with Ok r => Rabs r <= Rabs amp | Err _ => True end.

(** ** Absorbing borders *)

(** Decay factors in (0,1), coupling at most what decays. *)
Definition dissipative (pm : pml) : Prop :=
  forall q c, (coord (p_axis pm) q < p_thick pm)%nat ->
    0 < p_bE pm q c < 1 /\ Rabs (p_cE pm q c) <= 1 - p_bE pm q c
              /\ 0 < p_bH pm q c < 1 /\ Rabs (p_cH pm q c) <= 1 - p_bH pm q c.
(** The convolution memory is at most [M]. *)
Definition memory_below (N : shape3) (M : R) (pm : pml) : Prop :=
  forall x q c, (forall a, coord a q < pml_shape N pm a)%nat ->
    Rabs (p_psiE pm x q c) <= M /\ Rabs (p_psiH pm x q c) <= M.
(** Both fields are at most [B]. *)
Definition fields_below (B : R) (g : grid) : Prop :=
  forall p c, in_grid (g_N g) p -> Rabs (g_E g p c) <= B /\ Rabs (g_H g p c) <= B.
