(** Vocabulary of C69. *)
From Coq Require Import Reals String List.
From Verif Require Import Base Cplx Model_Materials Spec_Materials Model_EpsGrid Spec_EpsGrid Model_Plots.
Import ListNotations.
Open Scope R_scope.

(** The permittivities of one cell, by frequency *)
Definition cell_eps (eps : grid4 C) (i j l : nat) : list C := nth l (nth j (nth i eps []) []) [].

(** The markers of a plot: one for each cell, at its place in the cube from -1 to 1,
    with the value [v] of that cell *)
Definition drawn {A} (cfg : plot_cfg) (ms : list (R * R * R * A)) (v : nat -> nat -> nat -> A) : Prop :=
  length ms = (p_Nx cfg * p_Ny cfg * p_N_layers cfg)%nat
  /\ forall i j l, (i < p_Nx cfg)%nat -> (j < p_Ny cfg)%nat -> (l < p_N_layers cfg)%nat ->
       nth_error ms ((i * p_Ny cfg + j) * p_N_layers cfg + l)
       = Some (tick (p_Nx cfg) i, tick (p_Ny cfg) j, tick (p_N_layers cfg) l, v i j l).

(** A permittivity grid of the size the config says *)
Definition fits (cfg : plot_cfg) (eps : grid4 C) : Prop :=
  shape4 eps (p_Nx cfg) (p_Ny cfg) (p_N_layers cfg) (length (p_freqs cfg)).
(** There is at least one cell. *)
Definition some_cell (cfg : plot_cfg) : Prop := (0 < p_Nx cfg)%nat /\ (0 < p_Ny cfg)%nat /\ (0 < p_N_layers cfg)%nat.

(** Material files as they are in the data folder: different names, no empty table,
    two or more *)
Definition good_files (files : list mfile) : Prop :=
  NoDup (map fst files) /\ (forall f, In f files -> snd f <> []) /\ (2 <= length files)%nat.

(** The permittivities of the materials at the frequencies *)
Definition material_data (files : list mfile) (freqs : list R) (mats : list (list C)) : Prop :=
  length mats = length files
  /\ forall i name table, nth_error files i = Some (name, table) ->
       exists m, nth_error mats i = Some m /\ load_material_data table freqs = Ok m.

(** Material number [i] is one of those closest to the permittivities [e]. *)
Definition is_closest (mats : list (list C)) (e : list C) (i : nat) : Prop :=
  (i < length mats)%nat /\ forall j, (j < length mats)%nat -> dist e (nth i mats []) <= dist e (nth j mats []).
