(** Depths in a stack of layers, ellipsometric angles. *)
From Coq Require Import Reals ZArith List.
From Verif Require Import Base PyVal Cplx Model_TMM Spec_TMM.
Import ListNotations.
Open Scope R_scope.

(** The thicknesses of a stack: [ds] between two half-infinite media. *)
Definition stack_of (ds : list R) : list pyfloat := PInf :: map Fin ds ++ [PInf].

(** The depth [x], counted from the front, is at [z] in the layer number [i] of
    layers [ds] which follow each other (the first has number 0); behind all of
    them, [i] is their number. *)
Definition at_depth (ds : list R) (x : R) (i : nat) (z : R) : Prop :=
  (i <= length ds)%nat /\ x = total (firstn i ds) + z /\ 0 <= z /\ ((i < length ds)%nat -> z < nth i ds 0).
(** The same in [stack_of ds], where number 0 is the medium in front. *)
Definition in_stack (ds : list R) (x : R) (i : nat) (z : R) : Prop :=
  (i = 0%nat /\ x < 0 /\ z = x) \/ ((0 < i)%nat /\ at_depth ds x (i - 1) z).

(** Ellipsometric angles of a ratio of reflected amplitudes. *)
Definition ellipsometric (rs rp : C) (psi Delta : R) : Prop :=
  0 <= psi < PI / 2 /\ - PI < Delta <= PI /\ (RtoC (tan psi) * (cos Delta, sin Delta) * rs = - rp)%C.
