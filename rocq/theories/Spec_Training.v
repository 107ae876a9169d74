(** Vocabulary for the statements of C21-C23: what happened during a run. *)
From Coq Require Import Reals List Bool.
From Verif Require Import Base PyVal Model_Training.
Import ListNotations.
Open Scope R_scope.

(** The losses (and L1 errors) of the first [n] iterations that produced a spectrum, in order. *)
Definition losses (out : nat -> outcome) (n : nat) : list pyfloat :=
  flat_map (fun k => match out k with Done l _ _ => [l] | _ => [] end) (seq 0 n).
Definition l1s (out : nat -> outcome) (n : nat) : list pyfloat :=
  flat_map (fun k => match out k with Done _ l _ => [l] | _ => [] end) (seq 0 n).
Definition errors (out : nat -> outcome) (n : nat) : nat :=
  length (filter (fun k => match out k with SpectrumValueError => true | _ => false end) (seq 0 n)).

(** last [k] elements of a list *)
Definition lastn {A} (k : nat) (l : list A) : list A := skipn (length l - k) l.

(** Iteration [k] set a new record: its loss is below infinity and strictly
    below every earlier loss (NaNs never count). *)
Definition record_at (out : nat -> outcome) (k : nat) (l : pyfloat) : Prop :=
  (exists l1 rn, out k = Done l l1 rn) /\ flt l PInf = true /\
  forall j l' l1' rn', (j < k)%nat -> out j = Done l' l1' rn' -> l' = NaN \/ flt l l' = true.
Definition renormalised_at (out : nat -> outcome) (k : nat) : Prop :=
  exists l l1, out k = Done l l1 true.

(** The observable history of a run: the weights evaluated at each iteration,
    the evaluation results, and the learning rate in force. *)
Record history {W O} (evaluate : nat -> W -> outcome) (adam : nat -> W -> O -> R -> W * O)
    (w0 : W) (lr0 : R) (n : nat) (ws : nat -> W) (out : nat -> outcome) (lr : nat -> R) : Prop := {
  h_start : ws 0%nat = w0;
  h_lr_start : lr 0%nat = lr0;
  h_out : forall k, (k < n)%nat -> out k = evaluate k (ws k);
  h_ok : forall k e, (k < n)%nat -> out k <> Raised e;
  h_step : forall k l l1 rn, (k < n)%nat -> out k = Done l l1 rn ->
           exists o o', adam k (ws k) o (lr k) = (ws (S k), o') }.
