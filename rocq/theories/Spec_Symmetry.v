(** Moving and mirroring patterns. *)
From Coq Require Import Reals ZArith.
From Verif Require Import Base Model_Lattice Spec_Lattice Model_TRCWA.

(** The cell that takes the place of cell [a] of a period of [n] cells: [s] cells
    further on ([e] = 1), or mirrored and then moved ([e] = -1). *)
Definition moved (n : nat) (e s : Z) (a : nat) : nat := Z.to_nat ((s + e * Z.of_nat a) mod Z.of_nat n).

Definition is_sign (e : Z) : Prop := e = 1%Z \/ e = (-1)%Z.

(** Mirroring both axes (or none) is a symmetry of every lattice, mirroring one
    of them is if the lattice vectors lie along the axes. *)
Definition lattice_symmetric (c : trcwa_cfg) (e1 e2 : Z) : Prop :=
  e1 = e2 \/ exists Lx Ly : R, t_L1 c = as_arg (Lx, 0%R) /\ t_L2 c = as_arg (0%R, Ly).
