(** Vocabulary for the statements of C24-C27 and C55. *)
From Coq Require Import Reals List Arith.
Import ListNotations.
Open Scope R_scope.

(** [b] is obtained from [a] by dropping a prefix *)
Definition suffix {A} (b a : list A) : Prop := exists p, a = p ++ b.

(** the signal without its leading samples of size at most 1e-8; all of it if there is no larger sample *)
Definition stripped (s s' : list R) : Prop :=
  (s' = s /\ forall x, In x s -> Rabs x <= / 10 ^ 8) \/
  exists p x r, s = p ++ x :: r /\ s' = x :: r /\ / 10 ^ 8 < Rabs x /\ forall y, In y p -> Rabs y <= / 10 ^ 8.

(** max - min of a window *)
Definition is_range (l : list R) (r : R) : Prop :=
  exists a b, In a l /\ In b l /\ (forall x, In x l -> b <= x <= a) /\ r = a - b.

(** window [k] of [m] windows of [w] samples; the last one takes the rest *)
Definition window (w m : nat) (s : list R) (k : nat) : list R :=
  if Nat.ltb (k + 1) m then firstn w (skipn (k * w) s) else skipn (k * w) s.

(** interior strict local maximum *)
Definition is_peak (s : list R) (i : nat) : Prop :=
  (0 < i)%nat /\ (i + 1 < length s)%nat /\ nth (i - 1) s 0 < nth i s 0 /\ nth (i + 1) s 0 < nth i s 0.

(** a signal multiplied by a constant *)
Definition scale (c : R) (s : list R) : list R := map (fun x => c * x) s.
