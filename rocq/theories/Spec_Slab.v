(** Vocabulary for C103: the layered slab the grid of the simulation stands for. *)
From Coq Require Import Reals List.
From Verif Require Import Base PyVal Cplx Model_Layout Spec_Layout.
Import ListNotations.
Open Scope R_scope.

(** A wave of [k] radians per column in vacuum has this many in a material of relative
    permittivity [e] (the solution of sin (x/2) = sqrt e sin (k/2)). *)
Definition grid_phase (k e : R) : R := 2 * asin (sqrt e * sin (k / 2)).
(** The index of refraction a material of relative permittivity [e] has on the grid, and the
    thickness, in columns, of a layer of [L] columns of it. *)
Definition grid_index (k e : R) : R := tan (grid_phase k e / 2) / tan (k / 2).
Definition grid_thickness (k e : R) (L : nat) : R := grid_phase k e * INR L / (k * grid_index k e).

(** The first column of layer number [j], the first layer starting in column [a]; every layer
    is given by its relative permittivity and its number of columns. *)
Definition start (a : nat) (layers : list (R * nat)) (j : nat) : nat := (a + list_sum (map snd (firstn j layers)))%nat.
Definition filled (eps : nat -> R) (a : nat) (layers : list (R * nat)) : Prop :=
  forall j x, (j < length layers)%nat -> (start a layers j <= x < start a layers (S j))%nat -> eps x = fst (nth j layers (0, 0%nat)).

(** The same slab for the transfer-matrix code: vacuum, the layers, vacuum. *)
Definition slab_indices (k : R) (layers : list (R * nat)) : list C :=
  C1 :: map (fun q => RtoC (grid_index k (fst q))) layers ++ [C1].
Definition slab_thicknesses (k : R) (layers : list (R * nat)) : list pyfloat :=
  PInf :: map (fun q => Fin (grid_thickness k (fst q) (snd q))) layers ++ [PInf].

(** The layers of a simulation: their relative permittivity and their columns. *)
Definition layer_cells (c : fdtd_cfg) (layers : list (R * R)) : list (R * nat) :=
  map (fun j => (fst (nth j layers (0, 0)), (edge c (S j) - edge c j)%nat)) (seq 0 (length layers)).

(** The simulation of the example: two layers of ten columns without loss. *)
Definition glass_slice : eps_slice := [[[(4, 0); (2, 0)]]].
Definition glass_cells : list (R * nat) := [(4, 10%nat); (2, 10%nat)].
