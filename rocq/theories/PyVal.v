(** The fragment of Python's data model that the config validator uses:
    values, isinstance, comparison, truthiness, int(), max(), indexing.
    This is semantics of the *language*, shared by model and specification. *)
From Coq Require Import Reals ZArith String List Bool.
From Verif Require Import Base.
Import ListNotations.
Open Scope R_scope.

(** A Python float: a real (rounding is idealised away), an infinity or NaN. *)
Inductive pyfloat := Fin (r : R) | PInf | NInf | NaN.

(** A Python object in a config.  [VObj t] stands for any other object (None,
    a torch module, a DotMap, ...), of which only the truth value [t] is known
    and on which all other operations raise TypeError (simplification: tuples,
    dicts and tensors are not told apart). *)
Inductive pyval :=
| VInt (z : Z) | VBool (b : bool) | VFloat (f : pyfloat)
| VStr (s : string) | VList (l : list pyval) | VObj (t : bool).

(** Float comparison: NaN compares false with everything. *)
Definition flt (a b : pyfloat) : bool :=
  match a, b with
  | Fin x, Fin y => Rltb x y
  | Fin _, PInf | NInf, Fin _ | NInf, PInf => true
  | _, _ => false
  end.
Definition feq (a b : pyfloat) : bool :=
  match a, b with
  | Fin x, Fin y => Reqb x y
  | PInf, PInf | NInf, NInf => true
  | _, _ => false
  end.
Definition fle (a b : pyfloat) : bool := flt a b || feq a b.

(** Float multiplication and division (no overflow: reals are unbounded;
    no signed zeros). *)
Definition fneg (a : pyfloat) : pyfloat :=
  match a with Fin x => Fin (- x) | PInf => NInf | NInf => PInf | NaN => NaN end.
Definition fmul (a b : pyfloat) : pyfloat :=
  match a, b with
  | Fin x, Fin y => Fin (x * y)
  | NaN, _ | _, NaN => NaN
  | Fin x, i | i, Fin x =>
      if Req_EM_T x 0 then NaN else if Rlt_dec 0 x then i else fneg i
  | PInf, PInf | NInf, NInf => PInf
  | _, _ => NInf
  end.
Definition fdiv (a b : pyfloat) : res pyfloat :=
  match a, b with
  | _, Fin y =>
      if Req_EM_T y 0 then Err ZeroDivisionError else Ok (fmul a (Fin (/ y)))
  | NaN, _ | _, NaN => Ok NaN
  | Fin _, _ => Ok (Fin 0)
  | _, _ => Ok NaN
  end.
Definition fadd (a b : pyfloat) : pyfloat :=
  match a, b with
  | Fin x, Fin y => Fin (x + y)
  | NaN, _ | _, NaN => NaN
  | PInf, NInf | NInf, PInf => NaN
  | PInf, _ | _, PInf => PInf
  | _, _ => NInf
  end.

(** [int(f)] *)
Definition fint (a : pyfloat) : res Z :=
  match a with
  | Fin r => Ok (Rtrunc r)
  | NaN => Err ValueError
  | _ => Err OverflowError
  end.

(** Numeric reading of a value: ints, bools (True = 1) and floats. *)
Definition num_of (v : pyval) : option pyfloat :=
  match v with
  | VInt z => Some (Fin (IZR z))
  | VBool b => Some (Fin (if b then 1 else 0))
  | VFloat f => Some f
  | _ => None
  end.
Definition to_num (v : pyval) : res pyfloat :=
  match num_of v with Some f => Ok f | None => Err TypeError end.

(** [a == b] (objects of kind [VObj] are never equal: simplification). *)
Fixpoint py_eqb (a b : pyval) {struct a} : bool :=
  match a, b with
  | VStr s, VStr t => String.eqb s t
  | VList l, VList m =>
      (fix go (l m : list pyval) : bool :=
         match l, m with
         | [], [] => true
         | x :: l', y :: m' => py_eqb x y && go l' m'
         | _, _ => false
         end) l m
  | _, _ =>
      match num_of a, num_of b with
      | Some x, Some y => feq x y
      | _, _ => false
      end
  end.

(** [a < b]: numbers, strings, lists lexicographically; else TypeError. *)
Fixpoint py_lt (a b : pyval) {struct a} : res bool :=
  match a, b with
  | VStr s, VStr t => Ok (String.ltb s t)
  | VList l, VList m =>
      (fix go (l m : list pyval) : res bool :=
         match l, m with
         | [], [] => Ok false
         | [], _ :: _ => Ok true
         | _ :: _, [] => Ok false
         | x :: l', y :: m' => if py_eqb x y then go l' m' else py_lt x y
         end) l m
  | _, _ =>
      match num_of a, num_of b with
      | Some x, Some y => Ok (flt x y)
      | _, _ => Err TypeError
      end
  end.
(** [a <= b] on numbers. *)
Definition py_le_num (a b : pyval) : res bool :=
  match num_of a, num_of b with
  | Some x, Some y => Ok (fle x y)
  | _, _ => Err TypeError
  end.

(** [bool(v)] *)
Definition truthy (v : pyval) : bool :=
  match v with
  | VInt z => negb (Z.eqb z 0)
  | VBool b => b
  | VFloat (Fin r) => negb (Reqb r 0)
  | VFloat _ => true
  | VStr s => negb (String.eqb s "")
  | VList l => negb (Nat.eqb (length l) 0)
  | VObj t => t
  end.

(** [all(v)]: the characters of a string are all truthy. *)
Definition py_all (v : pyval) : res bool :=
  match v with
  | VList l => Ok (forallb truthy l)
  | VStr _ => Ok true
  | _ => Err TypeError
  end.

(** [v[i]] for a literal non-negative index. *)
Definition py_index (v : pyval) (i : nat) : res pyval :=
  match v with
  | VList l => match nth_error l i with Some x => Ok x | None => Err IndexError end
  | VStr s => match String.get i s with
              | Some a => Ok (VStr (String a EmptyString))
              | None => Err IndexError
              end
  | _ => Err TypeError
  end.

(** [len(v)] *)
Definition py_len (v : pyval) : res nat :=
  match v with
  | VList l => Ok (length l)
  | VStr s => Ok (String.length s)
  | _ => Err TypeError
  end.

(** [max(a, b)]: the first argument unless the second is strictly greater. *)
Definition py_max (a b : pyfloat) : pyfloat := if flt a b then b else a.

(** A config: the items of the dict in insertion order. *)
Definition config := list (string * pyval).
Fixpoint lookup (c : config) (k : string) : option pyval :=
  match c with
  | [] => None
  | (k', v) :: r => if String.eqb k k' then Some v else lookup r k
  end.
(** [cfg[key]] *)
Definition getitem (c : config) (k : string) : res pyval :=
  match lookup c k with Some v => Ok v | None => Err KeyError end.
(** [key in cfg] *)
Definition has_key (c : config) (k : string) : bool :=
  match lookup c k with Some _ => true | None => false end.
Definition in_strings (k : string) (l : list string) : bool :=
  existsb (String.eqb k) l.
