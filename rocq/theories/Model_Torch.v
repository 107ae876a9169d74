(** nidn/trcwa/utils/torch_functions.py and the tensor functions of
    nidn/fdtd/backend.py that are written there.

    Simplifications: entries are exact complex numbers whatever the type; of the
    types of torch only the integers, floats and complex numbers below occur;
    whether two tensors share memory is left out, and so are devices.  Tensors of
    other functions ([torch.mm] and so on) are modelled as documented by torch. *)
From Coq Require Import Reals ZArith List Bool.
From Verif Require Import Base Cplx.
Import ListNotations.
Open Scope R_scope.

(** Single and double precision; [torch.get_default_dtype()] is one of them. *)
Inductive precision := Single | Double.
Inductive dtype := Int64 | Float (p : precision) | Complex (p : precision).
Definition precision_eqb (p q : precision) : bool := match p, q with Single, Single | Double, Double => true | _, _ => false end.
Definition dtype_eqb (a b : dtype) : bool :=
  match a, b with
  | Int64, Int64 => true
  | Float p, Float q | Complex p, Complex q => precision_eqb p q
  | _, _ => false
  end.

(** A tensor: its type, shape and entries (those outside the shape mean nothing). *)
Record tensor := mkTensor { t_dtype : dtype; t_shape : list nat; t_at : list nat -> C }.

(** What a caller passes as [dtype]: Python's [complex], a type of torch, or None. *)
Inductive dtype_arg := PyComplex | Given (d : dtype) | NoType.

(** [torch.zeros(shape, dtype=...)] and [torch.eye(n, dtype=...)] *)
Definition zeros_of (d : dtype) (shape : list nat) : tensor := mkTensor d shape (fun _ => C0).
Definition eye_of (d : dtype) (n : nat) : tensor :=
  mkTensor d [n; n] (fun i => match i with [a; b] => if Nat.eqb a b then C1 else C0 | _ => C0 end).
Definition type_or_default (dd : precision) (a : option dtype) : dtype := match a with Some d => d | None => Float dd end.

(** [torch.complex(real, imag)]: shapes and types are equal and real in every call
    here; the precision is kept. *)
Definition complex_of (re im : tensor) : tensor :=
  mkTensor (match t_dtype re with Float p => Complex p | d => d end) (t_shape re)
    (fun i => Cadd (t_at re i) (Cmul Ci (t_at im i))).

(** torch_functions.py 5-20 [torch_zeros] *)
Definition torch_zeros (dd : precision) (shape : list nat) (a : dtype_arg) : tensor :=
  match a with
  | PyComplex => complex_of (zeros_of (Float dd) shape) (zeros_of (Float dd) shape)
  | Given d => zeros_of (type_or_default dd (Some d)) shape
  | NoType => zeros_of (type_or_default dd None) shape
  end.

(** torch_functions.py 23-38 [torch_eye] *)
Definition torch_eye (dd : precision) (n : nat) (a : dtype_arg) : tensor :=
  match a with
  | PyComplex => complex_of (eye_of (Float dd) n) (zeros_of (Float dd) [n; n])
  | Given d => eye_of (type_or_default dd (Some d)) n
  | NoType => eye_of (type_or_default dd None) n
  end.

(** [tensor.permute(dims)]: negative dimensions count from the end; IndexError for
    one that does not exist, RuntimeError for a wrong number or a repeated one. *)
Definition wrap_dim (n : nat) (d : Z) : res nat :=
  if Z.leb (- Z.of_nat n) d && Z.ltb d (Z.of_nat n) then Ok (Z.to_nat (if Z.ltb d 0 then d + Z.of_nat n else d)) else Err IndexError.
Fixpoint wrap_dims (n : nat) (ds : list Z) (seen : list nat) : res (list nat) :=
  match ds with
  | [] => Ok []
  | d :: r =>
      let! k := wrap_dim n d in
      if existsb (Nat.eqb k) seen then Err RuntimeError else
      let! ks := wrap_dims n r (k :: seen) in
      Ok (k :: ks)
  end.
Fixpoint place (k : nat) (ks : list nat) : nat :=
  match ks with
  | [] => 0%nat
  | x :: r => if Nat.eqb x k then 0%nat else S (place k r)
  end.
Definition permute (t : tensor) (ds : list Z) : res tensor :=
  let n := length (t_shape t) in
  if negb (Nat.eqb (length ds) n) then Err RuntimeError else
  let! ks := wrap_dims n ds [] in
  Ok (mkTensor (t_dtype t) (map (fun k => nth k (t_shape t) 0%nat) ks)
        (fun i => t_at t (map (fun k => nth (place k ks) i 0%nat) (seq 0 n)))).

(** torch_functions.py 41-55 [torch_transpose] *)
Definition torch_transpose (t : tensor) : res tensor :=
  permute t (map (fun i => Z.of_nat (length (t_shape t)) - Z.of_nat i - 1)%Z (seq 0 (length (t_shape t)))).

(** backend.py 102-107 [transpose]; [permute()] without any argument is a TypeError. *)
Definition backend_transpose (t : tensor) (axes : option (list Z)) : res tensor :=
  match (match axes with
         | None => map Z.of_nat (rev (seq 0 (length (t_shape t))))
         | Some a => a
         end) with
  | [] => Err TypeError
  | ds => permute t ds
  end.

Definition is_complex (d : dtype) : bool := match d with Complex _ => true | _ => false end.
(** [tensor.type(d)] to a complex type *)
Definition cast (d : dtype) (t : tensor) : tensor := mkTensor d (t_shape t) (t_at t).

Definition sum_to (n : nat) (f : nat -> C) : C := fold_right Cadd C0 (map f (seq 0 n)).

(** [torch.mv], [torch.mm] and [torch.dot]: RuntimeError for types that differ and
    shapes that do not fit. *)
Definition mv (a b : tensor) : res tensor :=
  if negb (dtype_eqb (t_dtype a) (t_dtype b)) then Err RuntimeError else
  match t_shape a, t_shape b with
  | [n; m], [k] => if Nat.eqb m k then Ok (mkTensor (t_dtype a) [n] (fun i => sum_to m (fun j => Cmul (t_at a [nth 0 i 0%nat; j]) (t_at b [j]))))
                   else Err RuntimeError
  | _, _ => Err RuntimeError
  end.
Definition mm (a b : tensor) : res tensor :=
  if negb (dtype_eqb (t_dtype a) (t_dtype b)) then Err RuntimeError else
  match t_shape a, t_shape b with
  | [n; m], [k; p] =>
      if Nat.eqb m k then
        Ok (mkTensor (t_dtype a) [n; p] (fun i => sum_to m (fun j => Cmul (t_at a [nth 0 i 0%nat; j]) (t_at b [j; nth 1 i 0%nat]))))
      else Err RuntimeError
  | _, _ => Err RuntimeError
  end.
Definition dot1 (a b : tensor) : res tensor :=
  if negb (dtype_eqb (t_dtype a) (t_dtype b)) then Err RuntimeError else
  match t_shape a, t_shape b with
  | [n], [k] => if Nat.eqb n k then Ok (mkTensor (t_dtype a) [] (fun _ => sum_to n (fun j => Cmul (t_at a [j]) (t_at b [j])))) else Err RuntimeError
  | _, _ => Err RuntimeError
  end.

(** torch_functions.py 58-79 [torch_dot] *)
Definition torch_dot (a b : tensor) : res tensor :=
  let '(a, b) :=
    if dtype_eqb (t_dtype a) (t_dtype b) then (a, b)
    else if is_complex (t_dtype a) then (a, cast (t_dtype a) b)
    else if is_complex (t_dtype b) then (cast (t_dtype b) a, b)
    else (a, b) in
  if Nat.eqb (length (t_shape a)) 2 && Nat.eqb (length (t_shape b)) 1 then mv a b
  else if Nat.ltb 1 (length (t_shape a)) then mm a b
  else dot1 a b.

(** [torch.arange(start, end, step)] on numbers *)
Definition Rceil (x : R) : Z := (- Int_part (- x))%Z.
Definition arange (start stop step : R) : res (list R) :=
  if Req_EM_T step 0 then Err RuntimeError
  else if Rltb 0 step && Rltb stop start then Err RuntimeError
  else if Rltb step 0 && Rltb start stop then Err RuntimeError
  else Ok (map (fun i => start + INR i * step) (seq 0 (Z.to_nat (Rceil ((stop - start) / step))))).

(** backend.py 145-150 [linspace], for Python numbers ([num] an int).  A list
    repeated a negative number of times is empty. *)
Definition backend_linspace (start stop : R) (num : Z) (endpoint : bool) : res (list R) :=
  let e := if endpoint then 1 else 0 in
  if Req_EM_T (IZR num - e) 0 then Err ZeroDivisionError else
  let delta := (stop - start) / (IZR num - e) in
  if Req_EM_T delta 0 then Ok (repeat start (Z.to_nat num))
  else arange start (stop + 1 / 2 * e * delta) delta.

(** [bd.array(values, bd.int)] and [v.item()] of its entries (detectors.py 109-111,
    sources.py 288-290): numbers are cut off towards zero. *)
Definition array_int (l : list R) : list Z := map Rtrunc l.
