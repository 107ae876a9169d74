(** Vocabulary for C104: signals that have settled to an oscillation. *)
From Coq Require Import Reals ZArith List.
From Verif Require Import Base Cplx Model_Coeffs.
Import ListNotations.
Open Scope R_scope.

(** Every sample from number [n0] on is that of an oscillation of amplitude [a] with [P]
    samples per period. *)
Definition steady_from (n0 P : nat) (a ph : R) (s : list R) : Prop :=
  forall n, (n0 <= n < length s)%nat -> nth n s 0 = a * cos (2 * PI * INR n / INR P + ph).
Definition steady (P : nat) (a ph : R) (s : list R) : Prop := steady_from 0 P a ph s.
(** Two neighbouring samples are equal and positive: the crest falls between them. *)
Definition flat_crest (s : list R) : Prop := exists n, (S n < length s)%nat /\ nth n s 0 = nth (S n) s 0 /\ 0 < nth n s 0.
(** The same up to an error of [err] per sample. *)
Definition near_steady (err : R) (P : nat) (a ph : R) (s : list R) : Prop :=
  forall n, (n < length s)%nat -> Rabs (nth n s 0 - a * cos (2 * PI * INR n / INR P + ph)) <= err.
(** The crest is at least the part [eta] of a time step away from the middle between two
    samples. *)
Definition crest_off_middle (P : nat) (ph eta : R) : Prop := exists z : Z, Rabs (ph / (2 * PI / INR P) - IZR z) <= / 2 - eta.
(** The difference between the crest and its neighbours is then at least this. *)
Definition crest_margin (P : nat) (a eta : R) : R := 2 * a * sin (PI / INR P) * sin (2 * PI / INR P * eta).

(** What the removal of the transient leaves of a signal is, up to the error [err], at least
    two periods (and two samples) of an oscillation of amplitude [a], or nothing but the
    error if [a = 0]. *)
Definition settles (w : nat) (fs : bool) (err : R) (P : nat) (a : R) (s : list R) : Prop :=
  exists o ph, eliminate_transient w fs s = Ok o /\ o <> [] /\ near_steady err P a ph o
    /\ (a = 0 \/ (2 * P + 2 <= length o)%nat /\ exists eta, 0 < eta <= / 2 /\ crest_off_middle P ph eta /\ 2 * err < crest_margin P a eta).
(** A power close to that of the oscillation. *)
Definition power_near (err a p : R) : Prop := Rabs (p - a ^ 2 / 2) <= err * (2 * a + err).

(** The samples of an oscillation. *)
Definition samples (P n : nat) (a ph : R) : list R := map (fun i => a * cos (2 * PI * INR i / INR P + ph)) (seq 0 n).

(** From sample [n0] on, sample [n] of the signal, which is taken after step [n + 1], is up to
    [err] that of an oscillation with [P] steps per period and complex amplitude [z]. *)
Definition detected (err : R) (n0 P : nat) (z : C) (s : list R) : Prop :=
  forall n, (n0 <= n < length s)%nat -> Rabs (nth n s 0 - Re (z * Cis (- (2 * PI / INR P * INR (S n))))%C) <= err.

(** Four signals of the example: a wave, half of it behind the material, the same wave before
    the material, and with the reflected third added. *)
Definition ex_tf : list R := samples 8 30 1 0.
Definition ex_tm : list R := samples 8 30 (/ 2) 0.
Definition ex_rm : list R := samples 8 30 (4 / 3) 0.
