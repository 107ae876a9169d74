(** Vocabulary for C73. *)
From Coq Require Import Reals.
From Verif Require Import Base.
Open Scope R_scope.

(** The value of a call that does not raise. *)
Definition value_of (r : res R) : R := match r with Ok v => v | Err _ => 0 end.
