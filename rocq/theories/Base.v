(** Shared vocabulary of the models: results with exceptions, exact real
    helpers for Python/torch primitives.  No property lives here. *)
From Coq Require Import Reals ZArith String List Bool Lra Lia.
Import ListNotations.
Open Scope R_scope.

(** The exception classes raised by the modelled code. *)
Inductive exn :=
| KeyError | TypeError | RuntimeError | ValueError | IndexError
| ZeroDivisionError | OverflowError | AttributeError
| NotImplementedError | AssertionError | UnboundLocalError
| PlainException (* [raise Exception(...)] *).

(** The outcome of a Python call: a value or a raised exception. *)
Inductive res (A : Type) : Type :=
| Ok : A -> res A
| Err : exn -> res A.
Arguments Ok {A} _.
Arguments Err {A} _.

Definition bind {A B} (x : res A) (f : A -> res B) : res B :=
  match x with Ok a => f a | Err e => Err e end.
Notation "'let!' x ':=' e 'in' f" := (bind e (fun x => f))
  (at level 200, x pattern, e at level 100, f at level 200).

(** [if not b: raise e] *)
Definition ensure (b : bool) (e : exn) : res unit :=
  if b then Ok tt else Err e.

(** A Python [for x in l: body(x)] whose body only raises or passes. *)
Fixpoint for_each {A} (l : list A) (body : A -> res unit) : res unit :=
  match l with
  | [] => Ok tt
  | x :: r => let! _ := body x in for_each r body
  end.

(** Boolean comparisons of reals ([<], [<=], [==] of Python on finite floats). *)
Definition Rltb (a b : R) : bool := if Rlt_dec a b then true else false.
Definition Rleb (a b : R) : bool := if Rle_dec a b then true else false.
Definition Reqb (a b : R) : bool := if Req_EM_T a b then true else false.

(** Python [int(r)] for a finite float: truncation towards zero. *)
Definition Rfloor (r : R) : Z := Int_part r.
Definition Rtrunc (r : R) : Z :=
  if Rle_dec 0 r then Int_part r else (- Int_part (- r))%Z.

(** [sum(l)] for a list of reals. *)
Definition Rsum (l : list R) : R := fold_right Rplus 0 l.

(** [numpy.linspace(a, b, num=n)] / [torch.linspace(a, b, n)]: n points, the
    single point [a] when n = 1.  Exact real arithmetic. *)
Definition linspace (a b : R) (n : nat) : list R :=
  map (fun i => a + INR i * ((b - a) / INR (n - 1))) (seq 0 n).

(** [numpy.sort] on a list of reals (insertion sort, ascending). *)
Fixpoint Rinsert (x : R) (l : list R) : list R :=
  match l with
  | [] => [x]
  | y :: r => if Rle_dec x y then x :: l else y :: Rinsert x r
  end.
Fixpoint Rsort (l : list R) : list R :=
  match l with [] => [] | x :: r => Rinsert x (Rsort r) end.
