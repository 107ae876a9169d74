(** Vocabulary for C99: arithmetic with errors. *)
From Coq Require Import Reals ZArith List Permutation.
From Verif Require Import Base Model_Layout Spec_Layout.
Import ListNotations.
Open Scope R_scope.

(** Sums and products with a relative error of at most [e]; [e] is 2^-53 for double
    precision rounded to the nearest *)
Definition accurate (add mul : R -> R -> R) (e : R) : Prop :=
  (forall x y, Rabs (add x y - (x + y)) <= e * Rabs (x + y))
  /\ (forall x y, Rabs (mul x y - x * y) <= e * Rabs (x * y)).

(** [v] is the sum of the numbers of a list, added up in some order and with
    brackets put somewhere *)
Inductive summed (add : R -> R -> R) : list R -> R -> Prop :=
| summed_none : summed add [] 0
| summed_one x : summed add [x] x
| summed_add l l' a b : l <> [] -> l' <> [] -> summed add l a -> summed add l' b -> summed add (l ++ l') (add a b)
| summed_order l l' a : Permutation l l' -> summed add l a -> summed add l' a.

(** The exact position of the beginning of layer [k], and of the end of the grid,
    in columns *)
Definition position (c : fdtd_cfg) (k : nat) : R := f_scaling c * layer_begin c k.
Definition extent (c : fdtd_cfg) : R := f_scaling c * (f_pml c * 2 + f_free c * 2 + Rsum (f_thick c)).
