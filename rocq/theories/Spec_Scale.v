(** Vocabulary for C110: a simulation in which every length is [k] times as large. *)
From Coq Require Import Reals ZArith List.
From Verif Require Import Base Model_Units Model_Layout.
Import ListNotations.
Open Scope R_scope.

(** The layers, the free space, the PML and the position of the source are [k] times as
    large, with [k] times fewer columns per micrometre. *)
Definition enlarged (k : R) (c : fdtd_cfg) : fdtd_cfg :=
  mkFcfg (f_scaling c / k) (k * f_pml c) (k * f_free c) (map (Rmult k) (f_thick c)) (f_det c)
    (k * f_src_x c) (k * f_src_y c) (f_pulse c) (f_source c) (f_niter c) (f_min_gp c).
