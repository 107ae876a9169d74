(** Where [nidn/fdtd_integration/init_fdtd.py] ("init" below) puts the layers, the
    detectors and the grid's end if sums and products are not exact: the same
    arithmetic as in Model_Layout.v, with an arbitrary addition and multiplication
    of numbers instead of the exact ones. *)
From Coq Require Import Reals ZArith List Bool.
From Verif Require Import Base Model_Coeffs Model_FDTD Model_Register Model_Layout.
Import ListNotations.
Open Scope R_scope.

Section Arithmetic.
  Variables add mul : R -> R -> R.

  (** init 101-116: the first and the last column (exclusive) of each of [n] layers,
      from layer [i] on *)
  Fixpoint layer_columns (s : R) (T : list R) (n i : nat) (x_start x_end : R) : res (list (Z * Z)) :=
    match n with
    | 0%nat => Ok []
    | S k =>
      let here := (Rtrunc (mul s x_start), Rtrunc (mul s x_end)) in
      match k with
      | 0%nat => Ok [here]
      | S _ =>
        let! ti := get T i in
        let! tn := get T (S i) in
        let! rest := layer_columns s T k (S i) (add x_start ti) (add x_end tn) in
        Ok (here :: rest)
      end
    end.

  (** init 98-116 *)
  Definition object_columns (c : fdtd_cfg) (n : nat) : res (list (Z * Z)) :=
    let x_start := add (f_pml c) (f_free c) in
    let! t0 := get (f_thick c) 0 in
    layer_columns (f_scaling c) (f_thick c) n 0 x_start (add x_start t0).

  (** init 56-60, 63, 65, 78: the column of the transmission detector; [total] is
      what [torch.sum] returns for the thicknesses *)
  Definition transmission_at (c : fdtd_cfg) (total : R) : Z :=
    Rtrunc (add (mul (add (add (f_pml c) (f_free c)) total) (f_scaling c)) (IZR (f_det c))).

  (** init 62, 64, 66, 79: the column of the reflection detector *)
  Definition reflection_at (c : fdtd_cfg) : Z :=
    Rtrunc (add (mul (add (f_pml c) (f_free c)) (f_scaling c)) (- IZR (f_det c))).

  (** init 33-40: the number of columns of the grid *)
  Definition columns_at (c : fdtd_cfg) (total : R) : Z :=
    Rtrunc (mul (f_scaling c) (add (add (mul (f_pml c) 2) (mul (f_free c) 2)) total)).
End Arithmetic.

(** init 103-110: the layers are put into the grid one after the other *)
Fixpoint place (freq : R) (es : list (Z * Z)) (eps : list (R * R)) (g : grid) : res grid :=
  match es, eps with
  | (a, b) :: es', e :: eps' => let! g := add_object a b e freq g in place freq es' eps' g
  | _, _ => Ok g
  end.
