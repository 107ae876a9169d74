(** What an absorbing layer (PML) should do, written without its implementation. *)
From Coq Require Import Reals ZArith String List Bool Lra Lia.
From Verif Require Import Base Model_FDTD.
Import ListNotations.
Open Scope R_scope.

(** A layer as the user places it: across which axis, at which end, how many
    cells deep, and its stability parameter. *)
Record absorber := mkAbsorber {
  b_axis : axis; b_high : bool; b_depth : nat; b_stability : R }.

(** The first cell of the layer along its axis, and whether a cell of the grid
    belongs to the layer: the outermost [b_depth] cells at its end. *)
Definition first_cell (N : shape3) (l : absorber) : nat :=
  if b_high l then N (b_axis l) - b_depth l else 0.
Definition covers (N : shape3) (l : absorber) (p : pos) : bool :=
  if b_high l then (N (b_axis l) - b_depth l <=? coord (b_axis l) p)%nat
  else (coord (b_axis l) p <? b_depth l)%nat.

(** Cubic grading of the conductivity: 40 x^3 / (depth + 1)^4 at distance x from
    the inner side.  Electric values sit half a cell deeper than magnetic ones;
    the last cell in index order has no magnetic conductivity. *)
Definition grading (l : absorber) (x : R) : R := 40 * x ^ 3 / (INR (b_depth l) + 1) ^ 4.
Definition electric_loss (N : shape3) (l : absorber) (p : pos) : R :=
  let i := INR (coord (b_axis l) p - first_cell N l) in
  grading l (if b_high l then i + 1 / 2 else INR (b_depth l) - i - 1 / 2).
Definition magnetic_loss (N : shape3) (l : absorber) (p : pos) : R :=
  let i := (coord (b_axis l) p - first_cell N l)%nat in
  if (S i =? b_depth l)%nat then 0
  else grading l (if b_high l then INR i + 1 else INR (b_depth l) - INR i - 1).

(** Per step the memory shrinks by [fade] and takes up [uptake] times the field
    difference along the axis of the layer. *)
Definition fade (co : R) (l : absorber) (sigma : R) : R := exp (- ((sigma + b_stability l) * co)).
Definition uptake (co : R) (l : absorber) (sigma : R) : R :=
  (fade co l sigma - 1) * (sigma / (sigma + b_stability l)).

(** Differences along the axis between neighbouring cells of the layer. *)
Definition backward (N : shape3) (l : absorber) (F : field) (d : axis) (p : pos) : R :=
  let i := coord (b_axis l) p in
  if (i =? first_cell N l)%nat then 0 else F p d - F (setc (b_axis l) (i - 1) p) d.
Definition forward (N : shape3) (l : absorber) (F : field) (d : axis) (p : pos) : R :=
  let i := coord (b_axis l) p in
  if (S i =? first_cell N l + b_depth l)%nat then 0 else F (setc (b_axis l) (S i) p) d - F p d.

(** The memory after the steps 0..n, given the differences of those steps: a
    discrete convolution with a decaying exponential. *)
Definition remembered (b c : R) (d : nat -> R) (n : nat) : R :=
  Rsum (map (fun j => b ^ (n - j) * (c * d j)) (seq 0 (S n))).

(** The unit vector along [a] times a vector: how a derivative along [a] enters
    a curl. *)
Definition cross (a : axis) (v : axis -> R) (c : axis) : R :=
  match a, c with
  | AX, AY => - v AZ | AX, AZ => v AY
  | AY, AZ => - v AX | AY, AX => v AZ
  | AZ, AX => - v AY | AZ, AY => v AX
  | _, _ => 0
  end.

(** What layer [l] adds to the curl of H (of E) in cell [p] at step [n] of the
    run [h]: the curl taken of the memory, plus a constant 1e-16 on the
    electric side. *)
Definition electric_share (h : nat -> grid) (l : absorber) (n : nat) (p : pos) (c : axis) : R :=
  let N := g_N (h 0%nat) in let co := g_courant (h 0%nat) in let s := electric_loss N l p in
  if covers N l p
  then cross (b_axis l)
         (fun d => remembered (fade co l s) (uptake co l s)
                     (fun j => backward N l (g_H (h j)) d p) n) c + / 10 ^ 16
  else 0.
Definition magnetic_share (h : nat -> grid) (l : absorber) (n : nat) (p : pos) (c : axis) : R :=
  let N := g_N (h 0%nat) in let co := g_courant (h 0%nat) in let s := magnetic_loss N l p in
  if covers N l p
  then cross (b_axis l)
         (fun d => remembered (fade co l s) (uptake co l s)
                     (fun j => forward N l (g_E (h (S j))) d p) n) c
  else 0.
