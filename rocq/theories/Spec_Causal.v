(** Vocabulary for C108: how long a simulation cannot know about a layer. *)
From Coq Require Import Reals ZArith List.
From Verif Require Import Base Model_Units Model_Layout Spec_Layout.
Import ListNotations.

(** The number of first samples at the reflection detector that light from the source in
    column [s0] cannot have carried back from layer [j]: as many steps as there are columns
    from behind the source to before the layer, or from the layer to the right PML, which
    also emits, if these are fewer, and as many as there are from the layer to the detector. *)
Definition return_time (c : fdtd_cfg) (s0 j : nat) : nat :=
  Nat.min (edge c j - (s0 + 2)) (columns c - pml_columns c - edge c j) + (edge c j - 1 - reflection_column c).

(** The number of first steps in which light from the source in column [s0], or what the
    right PML emits, cannot have reached column [x]. *)
Definition arrival_time (c : fdtd_cfg) (s0 x : nat) : nat := Nat.min (x - (s0 + 1)) (columns c - pml_columns c - (x + 1)).
