(** Complex numbers as pairs of reals. *)
From Coq Require Import Reals Lra Psatz.
Open Scope R_scope.

Definition C : Type := (R * R)%type.
Definition Re (z : C) : R := fst z.
Definition Im (z : C) : R := snd z.
Definition RtoC (x : R) : C := (x, 0).
Definition C0 : C := (0, 0).
Definition C1 : C := (1, 0).
Definition Ci : C := (0, 1).
Definition Cadd (a b : C) : C := (Re a + Re b, Im a + Im b).
Definition Copp (a : C) : C := (- Re a, - Im a).
Definition Csub (a b : C) : C := (Re a - Re b, Im a - Im b).
Definition Cmul (a b : C) : C := (Re a * Re b - Im a * Im b, Re a * Im b + Im a * Re b).
Definition Cnorm2 (a : C) : R := Re a * Re a + Im a * Im a.
Definition Cinv (a : C) : C := (Re a / Cnorm2 a, - Im a / Cnorm2 a).
Definition Cdiv (a b : C) : C := Cmul a (Cinv b).
Definition Cconj (a : C) : C := (Re a, - Im a).
Definition Cscal (r : R) (a : C) : C := (r * Re a, r * Im a).
(** [torch.abs] of a complex number. *)
Definition Cabs (a : C) : R := sqrt (Cnorm2 a).
(** [exp(i t)] and [exp(z)] *)
Definition Cis (t : R) : C := (cos t, sin t).
Definition Cexp (z : C) : C := Cscal (exp (Re z)) (Cis (Im z)).

Declare Scope C_scope.
Delimit Scope C_scope with C.
Bind Scope C_scope with C.
Infix "+" := Cadd : C_scope.
Infix "-" := Csub : C_scope.
Infix "*" := Cmul : C_scope.
Infix "/" := Cdiv : C_scope.
Notation "- x" := (Copp x) : C_scope.
Notation "/ x" := (Cinv x) : C_scope.
