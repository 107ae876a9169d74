(** Vocabulary for the statements of C18-C20. *)
From Coq Require Import Reals List Bool.
From Verif Require Import Base Model_Losses.
Import ListNotations.
Open Scope R_scope.

(** |a-b|^L with 0^L = 0 (for L > 0) *)
Definition absL (L a b : R) : R := if Req_EM_T a b then 0 else Rpower (Rabs (a - b)) L.
(** sum over the points *)
Definition sumL (L : R) (xs ys : list R) : R :=
  Rsum (map (fun p => absL L (fst p) (snd p)) (combine xs ys)).
(** absorption spectrum 1 - T - R *)
Definition absorption (Rs Ts : list R) : list R :=
  map (fun p => 1 - snd p - fst p) (combine Rs Ts).
(** no point of the spectra exceeds R + T = 1 *)
Definition physical (Rs Ts : list R) : Prop :=
  forall p, In p (combine Rs Ts) -> fst p + snd p <= 1.
