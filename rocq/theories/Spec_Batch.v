(** Vocabulary of C70. *)
From Coq Require Import String Ascii List Bool.
From Verif Require Import Model_Runs Spec_Runs Model_Batch.
Import ListNotations.
Open Scope string_scope.

(** The files [save_all_plots] writes *)
Definition plot_files : list string :=
  ["spectra_comparison.png"; "losses.png"; "model_grid.png"; "model_grid_per_freq.png"; "material_grid.png"; "eps_per_pointsNone.png"].

(** The places of the results and of the results of this batch *)
Definition results_place (cwd : place) : place := "results" :: tl cwd.
Definition batch_place (cwd : place) (t0 : time) : place := (dt_string t0 ++ "_results") :: results_place cwd.

(** Nothing is stored under the time of this batch yet, and "results" is not a file. *)
Definition fresh {V} (cwd : place) (t0 : time) (fs : files V) : Prop :=
  (forall p, fs (p ++ batch_place cwd t0)%list = None)
  /\ forall c, fs (results_place cwd) <> Some (File c).

(** The config's name has no slash and the plots are among those files. *)
Definition fine {V} (name_of : V -> string) (j : job V) : Prop :=
  (forall cfg, j_trained V j = Some cfg -> slashless (name_of cfg)) /\ incl (j_plots V j) plot_files.

(** Where a config stops the batch, if at all *)
Definition stops {V} (j : job V) : option stage :=
  if j_loads V j then
    match j_trained V j with
    | None => Some Training
    | Some _ => match j_how V j with
                | Completes => if j_plots_end V j then None else Some Plotting
                | _ => Some Saving
                end
    end
  else Some Loading.

(** The run file of a config, as a path from the working directory *)
Definition run_file (t0 : time) (name : string) (t : time) : string :=
  file_name ((dt_string t0 ++ "_results") ++ "/" ++ (name ++ "_" ++ dt_string t0) ++ "/") name t.
(** The place of one of its plots *)
Definition plot_place (cwd : place) (t0 : time) (name plot : string) : place :=
  plot :: (name ++ "_" ++ dt_string t0) :: batch_place cwd t0.
