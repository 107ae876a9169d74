(** Property theorems C99: the layout of an FDTD simulation when sums and products
    are rounded.  The words used in the statements ([accurate], [summed],
    [position], [extent]) are defined in Spec_Rounding.v, those for the exact
    columns ([edge], [columns], ...) in Spec_Layout.v. *)
From Coq Require Import PrimFloat.
From Coq Require Import Reals ZArith String List Bool Lra Lia.
From Verif Require Import Base Model_Units Model_Coeffs Model_FDTD Model_Register Model_Layout Spec_Layout Model_Rounding Spec_Rounding
  Proof_Rounding Proof_Rounding2 Proof_Rounding3.
Import ListNotations.
Open Scope R_scope.

(** With exact arithmetic these are the columns the layers are put at (C28). *)
Theorem C99_exact : forall c slice row layers wl es, get slice 0 = Ok row -> get row 0 = Ok layers ->
  object_columns Rplus Rmult c (length layers) = Ok es ->
  init_fdtd c (Some slice) wl = let! g := init_fdtd c None wl in place (SPEED_OF_LIGHT / wl) es layers g.
Proof. exact exact_columns. Qed.
Print Assumptions C99_exact.

(** Whatever sums and products return, each layer begins in the column where the
    one before ends: no gaps, no overlaps. *)
Theorem C99_adjacent : forall add mul c n es k a b a' b', object_columns add mul c n = Ok es ->
  nth_error es k = Some (a, b) -> nth_error es (S k) = Some (a', b') -> a' = b.
Proof. exact adjacent. Qed.
Print Assumptions C99_adjacent.

(** With a rounding that keeps the order of numbers and rounded numbers as they are,
    no layer ends before it begins. *)
Theorem C99_ordered : forall (rnd : R -> R) c n es k a b, (forall x y, x <= y -> rnd x <= rnd y) -> (forall x, rnd (rnd x) = rnd x) -> rnd 0 = 0 ->
  0 < f_scaling c -> 0 <= f_pml c + f_free c -> Forall (fun t => 0 < t) (f_thick c) ->
  object_columns (fun x y => rnd (x + y)) (fun x y => rnd (x * y)) c n = Ok es -> nth_error es k = Some (a, b) -> (a <= b)%Z.
Proof. exact ordered. Qed.
Print Assumptions C99_ordered.

(** With relative errors of at most [e]: every border of a layer is in its exact
    column or in a neighbouring one, the latter only if its exact position is within
    [d] columns of a column's border.  The detectors and the end of the grid are in
    their exact columns or a neighbouring one.  The transmission detector is always
    behind the layers and, with a PML of two columns, in the grid; the reflection
    detector is in front of the layers if it is to be two columns away. *)
Theorem C99_layout : forall add mul e d c, accurate add mul e -> 0 <= e -> proper c -> 1 <= f_scaling c * f_pml c ->
  2 * INR (length (f_thick c) + 6) * e * extent c <= d -> d <= 1 / 4 ->
  exists p : nat -> Z,
    (forall n, (n <= length (f_thick c))%nat -> f_thick c <> [] -> exists es, object_columns add mul c n = Ok es /\ length es = n
       /\ forall k, (k < n)%nat -> nth_error es k = Some (p k, p (S k)))
    /\ (forall k, (k <= length (f_thick c))%nat -> (Z.abs (p k - Z.of_nat (edge c k)) <= 1)%Z
          /\ (p k <> Z.of_nat (edge c k) -> exists z, Rabs (position c k - IZR z) <= d))
    /\ (Z.abs (reflection_at add mul c - Z.of_nat (reflection_column c)) <= 1)%Z
    /\ ((2 <= f_det c)%Z -> (reflection_at add mul c < p 0%nat)%Z)
    /\ forall total, summed add (f_thick c) total ->
         (p (length (f_thick c)) <= transmission_at add mul c total)%Z
         /\ (Z.abs (transmission_at add mul c total - Z.of_nat (transmission_column c)) <= 1)%Z
         /\ (Z.abs (columns_at add mul c total - Z.of_nat (columns c)) <= 1)%Z
         /\ (2 <= f_scaling c * f_pml c -> (transmission_at add mul c total < columns_at add mul c total)%Z).
Proof. exact rounded_layout. Qed.
Print Assumptions C99_layout.

(** Rounding to the nearest of 53 bits qualifies. *)
Example C99_nearest : accurate (fun x y => nearest (x + y)) (fun x y => nearest (x * y)) (/ 2 ^ 53)
  /\ (forall x y, x <= y -> nearest x <= nearest y) /\ (forall x, nearest (nearest x) = nearest x) /\ nearest 0 = 0.
Proof. exact (conj nearest_accurate (conj nearest_mono (conj nearest_twice nearest_zero))). Qed.
Example C99_case : let c := mkFcfg 10 (3/2) 2 [1; 1/2; 1/3] 15 (3/2) 1 "continuous"%string "point"%string 400 10 in
  proper c /\ 2 <= f_scaling c * f_pml c /\ 2 * INR (length (f_thick c) + 6) * / 2 ^ 53 * extent c <= / 10 ^ 12
  /\ exists total, summed (fun x y => nearest (x + y)) (f_thick c) total.
Proof.
  cbn. split; [|split; [|split]].
  - constructor; cbn; try lra; try lia. repeat constructor; lra.
  - lra.
  - unfold extent, Rsum. cbn. lra.
  - eexists. apply (summed_add _ [1] [1/2; 1/3]); [discriminate|discriminate|apply summed_one|].
    apply (summed_add _ [1/2] [1/3]); [discriminate|discriminate|apply summed_one|apply summed_one].
Qed.
(** A border can miss its exact column: with a PML of 0.1, free space of 0.7
    micrometres and 10 columns per micrometre the layers begin in column 7, not 8. *)
Example C99_missed : PrimFloat.ltb (PrimFloat.mul 10%float (PrimFloat.add 0.1%float 0.7%float)) 8%float = true
  /\ 10 * (1/10 + 7/10) = 8.
Proof. split; [reflexivity|lra]. Qed.
