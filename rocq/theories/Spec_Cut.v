(** Vocabulary for C109: what the signals of a simulation depend on. *)
From Coq Require Import Reals ZArith List.
From Verif Require Import Base Model_Units Model_Layout Spec_Layout.
Import ListNotations.
Open Scope R_scope.

(** The same settings with other layer thicknesses or another number of time steps. *)
Definition with_thick (c : fdtd_cfg) (ts : list R) : fdtd_cfg :=
  mkFcfg (f_scaling c) (f_pml c) (f_free c) ts (f_det c) (f_src_x c) (f_src_y c) (f_pulse c) (f_source c) (f_niter c) (f_min_gp c).
Definition with_niter (c : fdtd_cfg) (n : Z) : fdtd_cfg :=
  mkFcfg (f_scaling c) (f_pml c) (f_free c) (f_thick c) (f_det c) (f_src_x c) (f_src_y c) (f_pulse c) (f_source c) n (f_min_gp c).

(** Column [x] lies in a layer with permittivity [e]; outside the stack it is vacuum. *)
Definition shows (c : fdtd_cfg) (layers : list (R * R)) (x : nat) (e : R * R) : Prop :=
  (exists j, (j < length layers)%nat /\ (edge c j <= x < edge c (S j))%nat /\ nth j layers (0, 0) = e)
  \/ ((x < edge c 0 \/ edge c (length layers) <= x)%nat /\ e = (1, 0)).

(** The grid is as long and the transmission detector is in the same column. *)
Definition same_box (c1 c2 : fdtd_cfg) : Prop := columns c1 = columns c2 /\ transmission_column c1 = transmission_column c2.
