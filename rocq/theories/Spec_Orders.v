(** Diffraction orders. *)
From Coq Require Import Reals ZArith.
From mathcomp Require Import all_ssreflect.
From Verif Require Import Base Cplx Model_TRCWA.

(** The order with number [i] of an object *)
Definition order_at (x : excited) (i : 'I_(size (x_G x))) : Z * Z := List.nth i (x_G x) (0, 0)%Z.

(** A pattern of Nx x Ny cells looks the same after moving it by (s, t) cells. *)
Definition repeats (Nx Ny : nat) (s t : Z) (cell : nat -> nat -> C) : Prop :=
  forall a b, (a < Nx)%N -> (b < Ny)%N ->
    cell a b = cell (Z.to_nat ((s + Z.of_nat a) mod Z.of_nat Nx)) (Z.to_nat ((t + Z.of_nat b) mod Z.of_nat Ny)).

(** The wave of order [g] looks the same after moving it by (s, t) cells. *)
Definition order_repeats (Nx Ny : nat) (s t : Z) (g : Z * Z) : Prop :=
  exists z, (s * g.1 * Z.of_nat Ny + t * g.2 * Z.of_nat Nx = z * (Z.of_nat Nx * Z.of_nat Ny))%Z.
