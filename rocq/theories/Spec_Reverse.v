(** Vocabulary for C106: running a simulation backwards. *)
From Coq Require Import Reals ZArith List Bool.
From Verif Require Import Base Model_FDTD Spec_FDTD.
Import ListNotations.
Open Scope R_scope.

(** Fields that agree in every cell of the grid. *)
Definition same_field (N : shape3) (A B : field) : Prop := forall p c, in_grid N p -> A p c = B p c.

(** The same grid with the magnetic field turned round. *)
Definition turned (g : grid) : grid :=
  with_fields g (g_E g) (fun p c => - g_H g p c) (g_steps g) (g_boundaries g) (g_detectors g).
(** [n] times the two halves of a step in the opposite order. *)
Fixpoint back (n : nat) (g : grid) : res grid :=
  match n with
  | O => Ok g
  | S m => let! h := update_H g in let! k := update_E h in back m k
  end.

(** A grid without absorbing borders, with sources that are silent from now on, whose
    periodic faces agree. *)
Definition tidy (g : grid) : Prop :=
  no_pml (g_boundaries g) /\ quiet_from (g_steps g) g
  /\ periodic_ok (periodic_on (g_boundaries g) (g_N g)) (g_N g) (g_E g)
  /\ periodic_ok (periodic_on (g_boundaries g) (g_N g)) (g_N g) (g_H g).

(** Two simulations of the same thing that differ only in their fields. *)
Definition same_setup (g h : grid) : Prop :=
  g_N h = g_N g /\ g_courant h = g_courant g /\ g_boundaries h = g_boundaries g
  /\ same_field (g_N g) (g_ie h) (g_ie g) /\ same_field (g_N g) (g_im h) (g_im g) /\ same_field (g_N g) (g_abs h) (g_abs g).
