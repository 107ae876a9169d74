(** How many sources, boundaries, detectors and objects a component adds to a grid, and
    that a grid has grown by so many, those it had staying in place. *)
From Coq Require Import List.
From Verif Require Import Base Model_FDTD Model_Register.
Import ListNotations.

Definition added (c : component) : nat * nat * nat * nat :=
  match c with
  | CPoint _ _ | CLine _ _ | CPlane _ _ => (1, 0, 0, 0)
  | CPeriodic _ | CPML _ _ => (0, 1, 0, 0)
  | CDetector _ _ => (0, 0, 1, 0)
  | CObject _ _ _ => (0, 0, 0, 1)
  | CAnisotropic => (0, 0, 0, 0)
  end%nat.
Definition grown (k : nat * nat * nat * nat) (g g' : grid) : Prop :=
  exists ss bs ds, g_sources g' = g_sources g ++ ss /\ g_boundaries g' = g_boundaries g ++ bs
    /\ g_detectors g' = g_detectors g ++ ds
    /\ (Datatypes.length ss, Datatypes.length bs, Datatypes.length ds, g_objects g' - g_objects g)%nat = k
    /\ (g_objects g <= g_objects g')%nat.
