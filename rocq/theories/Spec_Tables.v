(** Vocabulary for the statements of C94. *)
From Coq Require Import Reals String List.
From Verif Require Import Base Cplx Model_Materials.
Import ListNotations.
Open Scope R_scope.

(** The wavelengths of a table grow from row to row. *)
Definition increasing (t : list row) : Prop :=
  forall i a b, nth_error t i = Some a -> nth_error t (S i) = Some b -> Wavelength a < Wavelength b.

(** The square of the refractive index n + ik of a row. *)
Definition index_squared (r : row) : C := Cmul (n_ r, k_ r) (n_ r, k_ r).
