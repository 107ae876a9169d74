(** Vocabulary for the statements of C08-C11. *)
From Coq Require Import Reals String List Bool.
From Verif Require Import Base Cplx Model_Materials.
Import ListNotations.
Open Scope R_scope.

(** The files that are loaded: those not named in the skip list, in order. *)
Definition kept (files : list mfile) (to_skip : list string) : list mfile :=
  filter (fun f => negb (existsb (String.eqb (fst f)) to_skip)) files.

(** Frequency-averaged distance of a cell's permittivities to a material's. *)
Definition dist (eps mat : list C) : R :=
  Rsum (map (fun p => Cabs (fst p - snd p)%C) (combine eps mat)) / INR (length eps).

(** Entry (i,j) of a grid. *)
Definition cell {A} (g : list (list A)) (d : A) (i j : nat) : A := nth j (nth i g []) d.

(** Coordinate of index i of n equidistant points on [0,1] (0 if n = 1). *)
Definition coord (n i : nat) : R := if Nat.eqb n 1 then 0 else INR i / INR (n - 1).
