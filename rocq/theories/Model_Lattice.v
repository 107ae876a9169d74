(** nidn/trcwa/utils/kbloch.py: reciprocal lattice, truncation of the orders and
    wave vectors.  Exact real arithmetic. *)
From Coq Require Import Reals ZArith String List Bool.
From Verif Require Import Base Cplx.
Import ListNotations.
Open Scope R_scope.

(** A lattice vector argument: the code distinguishes Python lists from the rest. *)
Inductive lattice_arg := LList (l : list R) | LOther.

(** A vector with two components (a tensor of shape [2]). *)
Definition vec2 := (R * R)%type.

(** kbloch.py:8-24 [Lattice_Reciprocate].  The division is Python's float
    division, which raises on a zero divisor. *)
Definition Lattice_Reciprocate (l1 l2 : lattice_arg) : res (vec2 * vec2) :=
  match l1, l2 with
  | LList a, LList b =>
      match a, b with
      | [a0; a1], [b0; b1] =>
          let d := a0 * b1 - a1 * b0 in
          if Req_EM_T d 0 then Err ZeroDivisionError
          else Ok ((b1 / d, - b0 / d), (- a1 / d, a0 / d))
      | _, _ => Err AssertionError
      end
  | _, _ => Err AssertionError
  end.

(** kbloch.py:46-55 [Lattice_SetKs]: one complex component per order. *)
Definition Lattice_SetKs (G : list (Z * Z)) (kx0 ky0 : C) (lk1 lk2 : vec2) : list C * list C :=
  (map (fun g => Cadd kx0 (RtoC (2 * PI * (fst lk1 * IZR (fst g) + fst lk2 * IZR (snd g))))) G,
   map (fun g => Cadd ky0 (RtoC (2 * PI * (snd lk1 * IZR (fst g) + snd lk2 * IZR (snd g))))) G).

(** [torch.norm], [torch.dot] of 2-vectors and the cross product of line 101 *)
Definition vnorm (a : vec2) : R := sqrt (fst a * fst a + snd a * snd a).
Definition vdot (a b : vec2) : R := fst a * fst b + snd a * snd b.
Definition vcross (a b : vec2) : R := fst a * snd b - snd a * fst b.

(** [range(-e, 2*e+1-e)] of lines 111-112 *)
Definition extent_range (e : Z) : list Z :=
  map (fun i => (Z.of_nat i - e)%Z) (seq 0 (Z.to_nat (2 * e + 1))).

(** lines 113-115: [torch.meshgrid] of the two ranges, flattened *)
Definition candidates (ue ve : Z) : list (Z * Z) :=
  flat_map (fun a => map (fun b => (a, b)) (extent_range ve)) (extent_range ue).

(** line 118 *)
Definition Gl2_of (u v uv : R) (g : Z * Z) : R :=
  IZR (fst g) * IZR (fst g) * (u * u) + IZR (snd g) * IZR (snd g) * (v * v)
  + 2 * IZR (snd g) * IZR (fst g) * uv.

(** lines 135-138: the loop variable when the loop stops; index 0 ends the loop
    whether or not the test [Gl2[0] - Gl2[-1]] breaks *)
Fixpoint shell_cut (gl2 : list R) (tol : R) (i : nat) : nat :=
  match i with
  | O => O
  | S j => if Rlt_dec tol (Rabs (nth (S j) gl2 0 - nth j gl2 0)) then S j
           else shell_cut gl2 tol j
  end.

Section Truncation.
(** line 121: [numpy.argsort] (quicksort, not stable) is an oracle; the properties
    assume only that it returns a permutation that sorts. *)
Variable argsort : list R -> list nat.

(** kbloch.py:90-145 [Gsel_circular].  [int()] of NaN raises ValueError and of
    an infinity OverflowError: a zero vector makes uv^2/(u v)^2 = 0/0, parallel
    vectors make the divisor 0, a negative order makes the root NaN.  An order
    of 0 leaves the loop variable unbound. *)
Definition Gsel_circular (nG : Z) (lk1 lk2 : vec2) : res (list (Z * Z) * Z) :=
  let u := vnorm lk1 in
  let v := vnorm lk2 in
  let uv := vdot lk1 lk2 in
  let uxv := vcross lk1 lk2 in
  if Req_EM_T (u * v) 0 then Err ValueError else
  if (nG <? 0)%Z && negb (Reqb uxv 0) then Err ValueError else
  if Req_EM_T uxv 0 then Err OverflowError else
  let circ_area := IZR nG * Rabs uxv in
  let circ_radius := sqrt (circ_area / PI) + u + v in
  let s := sqrt (1 - (uv * uv) / ((u * v) * (u * v))) in
  let u_extent := (1 + Rtrunc (circ_radius / (u * s)))%Z in
  let v_extent := (1 + Rtrunc (circ_radius / (v * s)))%Z in
  let G := candidates u_extent v_extent in
  let gl2 := map (Gl2_of u v uv) G in
  let sort := argsort gl2 in
  let G := map (fun i => nth i G (0, 0)%Z) sort in
  let gl2 := map (fun i => nth i gl2 0) sort in
  let total := ((2 * u_extent + 1) * (2 * v_extent + 1))%Z in
  let nGtmp := if (nG <? total)%Z then nG else total in
  let tol := / 10 ^ 10 * Rmax (u * u) (v * v) in
  if (nGtmp <=? 0)%Z then Err UnboundLocalError
  else let n := shell_cut gl2 tol (Z.to_nat nGtmp - 1) in
       Ok (firstn n G, Z.of_nat n).

(** The argument [nG] of the public entry: an int or something else. *)
Inductive order_arg := OInt (z : Z) | OOther.

(** kbloch.py:27-43 [Lattice_getG].  Method 1 [Gsel_parallelogramic] (58-87)
    always raises TypeError: its first computation is [torch.sqrt] of an int. *)
Definition Lattice_getG (nG : order_arg) (lk1 lk2 : vec2) (method : Z) : res (list (Z * Z) * Z) :=
  match nG with
  | OOther => Err AssertionError
  | OInt n =>
      if (method =? 0)%Z then Gsel_circular n lk1 lk2
      else if (method =? 1)%Z then Err TypeError
      else Err PlainException
  end.
End Truncation.
