(** Vocabulary for C96: tensors and evenly spaced numbers. *)
From Coq Require Import Reals ZArith List.
From Verif Require Import Base Cplx Model_Torch.
Import ListNotations.
Open Scope R_scope.

(** An index of a tensor of a given shape *)
Definition inside (i shape : list nat) : Prop := Forall2 lt i shape.

(** Two tensors a program cannot tell apart *)
Definition same (t u : tensor) : Prop :=
  t_dtype t = t_dtype u /\ t_shape t = t_shape u /\ forall i, inside i (t_shape t) -> t_at t i = t_at u i.

(** f 0 + ... + f (n-1) *)
Fixpoint total (n : nat) (f : nat -> C) : C :=
  match n with 0%nat => C0 | S k => Cadd (total k f) (f k) end.

(** A matrix, a vector and a number of type [d] with given entries *)
Definition matrix (t : tensor) (d : dtype) (n m : nat) (A : nat -> nat -> C) : Prop :=
  t_dtype t = d /\ t_shape t = [n; m] /\ forall i j, (i < n)%nat -> (j < m)%nat -> t_at t [i; j] = A i j.
Definition vector (t : tensor) (d : dtype) (n : nat) (v : nat -> C) : Prop :=
  t_dtype t = d /\ t_shape t = [n] /\ forall i, (i < n)%nat -> t_at t [i] = v i.
Definition scalar (t : tensor) (d : dtype) (x : C) : Prop := t_dtype t = d /\ t_shape t = [] /\ t_at t [] = x.

(** The type of a product: that of both factors, or the complex one of the two; of
    two complex types it is the first. *)
Definition product_type (a b d : dtype) : Prop :=
  (a = b /\ d = a) \/ (exists p, a = Complex p /\ d = a) \/ ((forall p, a <> Complex p) /\ exists p, b = Complex p /\ d = b).

(** Dimension number [d] of [n], counted from the front, or from the end if negative *)
Definition denotes (n : nat) (d : Z) (k : nat) : Prop :=
  (k < n)%nat /\ (Z.of_nat k = d \/ (Z.of_nat k = d + Z.of_nat n)%Z).

(** [n] evenly spaced numbers from [a] in steps of [h] *)
Definition evenly (l : list R) (a h : R) (n : nat) : Prop :=
  length l = n /\ forall i, (i < n)%nat -> nth_error l i = Some (a + INR i * h).

(** Shapes that fit, as numpy would have it but for a vector before a matrix *)
Definition fits (s s' : list nat) : Prop :=
  (exists n m p, s = [n; m] /\ s' = [m; p]) \/ (exists n m, s = [n; m] /\ s' = [m]) \/ (exists n, s = [n] /\ s' = [n]).
