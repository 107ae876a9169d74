(** Light at normal incidence on a stack of films, as in optics textbooks. *)
From Coq Require Import Reals List.
From Verif Require Import Base Cplx.
Import ListNotations.

(** The phase factor of a film of index [n] and thickness [t]: exp (i n omega t). *)
Definition film_phase (omega n : C) (t : R) : C := Cexp (Ci * (n * omega) * RtoC t)%C.

(** A wave in a medium of index [n] meets the films [l] (index and thickness, the
    first one first), behind which there is a medium of index [nN].  The result
    (X, D, P) gives the amplitudes of the magnetic field: reflected over incident
    at the front of the first film is X/D, transmitted behind the last film over
    incident is P/D.  At a bare interface these are the Fresnel coefficients; a
    film in front adds its multiply reflected waves. *)
Fixpoint film (omega n : C) (l : list (C * R)) (nN : C) : C * C * C :=
  match l with
  | [] => (nN - n, nN + n, RtoC 2 * nN)%C
  | (n', t) :: l' =>
      let '(X, D, P) := film omega n' l' nN in
      let d := film_phase omega n' t in
      ((n' - n) * D + (n' + n) * (d * d * X),
       (n' + n) * D + (n' - n) * (d * d * X),
       RtoC 2 * n' * d * P)%C
  end.

(** An index of refraction that belongs to permittivity [e]: waves at frequency
    [omega] do not grow in the direction they travel. *)
Definition index_of (omega e n : C) : Prop := (n * n)%C = e /\ (0 <= Im (n * omega)%C)%R.
