(** Vocabulary for C107: the three rows of a simulation. *)
From Coq Require Import Reals ZArith List Bool.
From Verif Require Import Base Cplx Model_FDTD Spec_FDTD Spec_Harmonic.
Import ListNotations.
Open Scope R_scope.

(** The electric field across the plane, in column [x] and row [j]. *)
Definition ez (g : grid) (x j : nat) : R := g_E g (x, j, 0%nat) AZ.

(** Free columns (Spec_Harmonic.v) of a grid three rows high with a periodic boundary for the rows. *)
Definition three_rows (g : grid) (eps sig : nat -> R) (lo hi : nat) : Prop :=
  free_columns g eps sig lo hi /\ g_N g AY = 3%nat /\ g_N g AZ = 1%nat /\ In (Periodic AY) (g_boundaries g)
  /\ (forall p, in_grid (g_N g) p -> (lo <= coord AX p <= hi)%nat -> g_im g p AX = 1).

(** The first and the last row hold the same values. *)
Definition rows_agree (g : grid) (lo hi : nat) : Prop :=
  forall x, (lo <= x <= hi)%nat -> ez g x 0 = ez g x 2 /\ forall c, g_H g (x, 2%nat, 0%nat) c = g_H g (x, 0%nat, 0%nat) c.

(** Over [m] steps the electric field in the rows 1 and 2 oscillates with [w] radians per step
    and the amplitude [A j x] in row [j] of column [x]. *)
Definition rows_settled (w : R) (A : nat -> nat -> C) (g : grid) (n lo hi m : nat) : Prop :=
  forall k gk x j, (k <= m)%nat -> run_steps k g = Ok gk -> (lo <= x <= hi)%nat -> (1 <= j <= 2)%nat ->
    ez gk x j = Re (A j x * Cis (- (w * INR (n + k))))%C.
(** Mean and difference of the rows. *)
Definition mean_row (A : nat -> nat -> C) (x : nat) : C := Cscal (/ 2) (A 1%nat x + A 2%nat x)%C.
Definition row_gap (A : nat -> nat -> C) (x : nat) : C := (A 1%nat x - A 2%nat x)%C.
