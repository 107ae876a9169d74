(** Where an index puts a periodic boundary: an entry touches a border of the grid when
    it is the number 0 or -1, or a slice that starts there and ends at most one cell
    away; the first axis whose entry does so is meant. *)
From Coq Require Import ZArith List.
From Verif Require Import Base Model_FDTD Model_Register.
Import ListNotations.

(** An entry made of integers. *)
Definition integers (k : pykey) : Prop :=
  (exists z, k = KNum (PInt z)) \/ exists a b, k = int_slice a b.
Definition touches_border (k : pykey) : Prop := exists z : Z, (z = 0 \/ z = -1)%Z
  /\ (k = KNum (PInt z) \/ exists b, k = int_slice (Some z) (Some b) /\ (z - 1 <= b <= z + 1)%Z).
Definition meant_axis (x y z : pykey) (r : option axis) : Prop :=
  match r with
  | Some AX => touches_border x
  | Some AY => ~ touches_border x /\ touches_border y
  | Some AZ => ~ touches_border x /\ ~ touches_border y /\ touches_border z
  | None => ~ touches_border x /\ ~ touches_border y /\ ~ touches_border z
  end.
