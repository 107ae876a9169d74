(** Vocabulary for C109 to C111: the two polarizations of a grid that is one cell thick along an axis. *)
From Coq Require Import Reals List.
From Verif Require Import Base Model_FDTD Spec_FDTD.
Import ListNotations.
Open Scope R_scope.

(** The component along the flat axis [a], or the two others. *)
Definition part (a : axis) (z : bool) (c : axis) : Prop := if z then c = a else c <> a.

(** Two fields with the same values of these components in the grid. *)
Definition same_part (a : axis) (z : bool) (N : shape3) (F1 F2 : field) : Prop := forall p c, in_grid N p -> part a z c -> F1 p c = F2 p c.

(** Two boundaries of the same kind; two PMLs with the same coefficients and the same memory
    of the electric components [part a z] and the magnetic components [part a (negb z)]. *)
Definition same_part_boundary (a : axis) (z : bool) (N : shape3) (b1 b2 : boundary) : Prop :=
  match b1, b2 with
  | PMLb p1, PMLb p2 =>
      p_axis p1 = p_axis p2 /\ p_high p1 = p_high p2 /\ p_thick p1 = p_thick p2
      /\ p_bE p1 = p_bE p2 /\ p_cE p1 = p_cE p2 /\ p_bH p1 = p_bH p2 /\ p_cH p1 = p_cH p2
      /\ forall q x c, in_grid N (pml_cell N p1 q) ->
           (part a z x -> p_psiE p1 x q c = p_psiE p2 x q c) /\ (part a (negb z) x -> p_psiH p1 x q c = p_psiH p2 x q c)
  | _, _ => b1 = b2
  end.

(** Two grids, one cell thick along [a], of the same size, with the same Courant number, step count and
    sources, that agree in one polarization: [true] for E along [a] and H across it,
    [false] for E across [a] and H along it.  The other polarization, what only it sees of the material,
    and the detectors may be anything. *)
Definition same_polarization (a : axis) (z : bool) (g1 g2 : grid) : Prop :=
  g_N g1 = g_N g2 /\ g_N g1 a = 1%nat /\ g_courant g1 = g_courant g2 /\ g_steps g1 = g_steps g2 /\ g_sources g1 = g_sources g2
  /\ same_part a z (g_N g1) (g_E g1) (g_E g2) /\ same_part a (negb z) (g_N g1) (g_H g1) (g_H g2)
  /\ same_part a z (g_N g1) (g_ie g1) (g_ie g2) /\ same_part a z (g_N g1) (g_abs g1) (g_abs g2) /\ same_part a (negb z) (g_N g1) (g_im g1) (g_im g2)
  /\ Forall2 (same_part_boundary a z (g_N g1)) (g_boundaries g1) (g_boundaries g2).

(** A polarization without field. *)
Definition dark_polarization (a : axis) (z : bool) (g : grid) : Prop :=
  same_part a z (g_N g) (g_E g) zero_field /\ same_part a (negb z) (g_N g) (g_H g) zero_field.

(** Point and line sources drive E along z. *)
Definition drives_z (s : source) : Prop := match s with PointSource _ _ _ | LineSource _ _ _ => True | _ => False end.

(** Two detectors on the same cells with the same readings of one polarization; a current
    along z is read from H across z. *)
Definition same_part_detector (a : axis) (z : bool) (d1 d2 : detector) : Prop :=
  match d1, d2 with
  | FieldDetector c1 E1 H1, FieldDetector c2 E2 H2 => c1 = c2
      /\ Forall2 (Forall2 (fun v w : vec => forall c, part a z c -> v c = w c)) E1 E2
      /\ Forall2 (Forall2 (fun v w : vec => forall c, part a (negb z) c -> v c = w c)) H1 H2
  | CurrentDetector c1 I1, CurrentDetector c2 I2 => c1 = c2 /\ (a = AZ -> z = true -> I1 = I2)
  | UnplacedDetector, UnplacedDetector => True
  | _, _ => False
  end.
