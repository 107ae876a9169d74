(** The members of every grid: what one can write after [grid.] (fdtd/grid.py 88-575),
    leaving out the names with two underscores at both ends that all Python objects
    have. *)
From Coq Require Import String List.
Import ListNotations.
Local Open Scope string_scope.

Definition grid_attributes : list string :=
  [ "grid_spacing"; "Nx"; "Ny"; "Nz"; "D"; "courant_number"; "time_step"; "E"; "H"; "absorption_factor";
    "inverse_permittivity"; "inverse_permeability"; "time_steps_passed"; "sources"; "boundaries"; "detectors";
    "objects"; "folder" ].
Definition grid_properties : list string := [ "x"; "y"; "z"; "shape"; "time_passed" ].
Definition grid_methods : list string :=
  [ "_handle_distance"; "_handle_time"; "_handle_tuple"; "_handle_slice"; "_handle_single_key"; "run"; "step";
    "update_E"; "update_H"; "reset"; "add_source"; "add_boundary"; "add_detector"; "add_object"; "visualize";
    "save_simulation"; "generate_video"; "save_data" ].
Definition grid_members : list string := grid_attributes ++ grid_properties ++ grid_methods.
