(** nidn/scripts/run_cfgs.py: the configs of a folder, one after the other.

    Simplifications: what loading, training and plotting do is an argument per config:
    whether the file loads (and prints), the trained config or that training raised,
    the time and course of the save, the plots written and whether plotting came to
    its end.  Saving uses the file system of Model_Runs.v; a plot is a file that is
    not a run. *)
From Coq Require Import String Ascii List Bool Arith.
From Verif Require Import Base Model_Runs.
Import ListNotations.
Open Scope string_scope.

(** What stopped the batch *)
Inductive stage := Loading | Training | Saving | Plotting.

Section batch.
Variable V : Type.
Variable name_of : V -> string.

Record job := mkJob {
  j_loads : bool; j_trained : option V; j_time : time; j_how : progress;
  j_plots : list string; j_plots_end : bool }.

(** 35-37 *)
Definition result_folder (t0 : time) : string := dt_string t0 ++ "_results".
(** 56-57: the argument of [save_run] *)
Definition subfolder (t0 : time) (cfg : V) : string :=
  result_folder t0 ++ "/" ++ (name_of cfg ++ "_" ++ dt_string t0) ++ "/".
(** 59-61: the argument of [save_all_plots] *)
Definition plot_folder (t0 : time) (cfg : V) : string := "../results/" ++ subfolder t0 cfg.

(** [plt.savefig(save_path + "/…")] for each plot, after
    plots/save_all_plots.py:21 [Path(save_path).mkdir(…)] *)
Fixpoint write_plots (cwd : place) (folder : string) (plots : list string) (fs : files V) : files V * bool :=
  match plots with
  | [] => (fs, true)
  | f :: r =>
      match locate fs cwd (folder ++ "/" ++ f) with
      | None => (fs, false)
      | Some p =>
          match fs p with
          | Some Dir => (fs, false)
          | _ => write_plots cwd folder r (put p (File None) fs)
          end
      end
  end.
Definition save_plots_of (cwd : place) (folder : string) (plots : list string) (ends : bool) (fs : files V) : files V * bool :=
  let (fs1, made) := mkdirs fs cwd (parts folder) in
  if negb made then (fs1, false) else
  let (fs2, written) := write_plots cwd folder plots fs1 in
  (fs2, written && ends).

(** 41-63, the body of the loop *)
Definition run_job (cwd : place) (t0 : time) (j : job) (fs : files V) : files V * option stage :=
  if negb (j_loads j) then (fs, Some Loading) else
  match j_trained j with
  | None => (fs, Some Training)
  | Some cfg =>
      let (fs1, e) := save_run V name_of cwd cfg (subfolder t0 cfg) (j_time j) (j_how j) fs in
      match e with
      | Some _ => (fs1, Some Saving)
      | None =>
          let (fs2, ok) := save_plots_of cwd (plot_folder t0 cfg) (j_plots j) (j_plots_end j) fs1 in
          (fs2, if ok then None else Some Plotting)
      end
  end.

(** 40: the loop; the result tells which config stopped it, if any *)
Fixpoint run_batch (cwd : place) (t0 : time) (n : nat) (jobs : list job) (fs : files V) : files V * option (nat * stage) :=
  match jobs with
  | [] => (fs, None)
  | j :: r =>
      let (fs1, e) := run_job cwd t0 j fs in
      match e with
      | Some s => (fs1, Some (n, s))
      | None => run_batch cwd t0 (S n) r fs1
      end
  end.
Definition run_cfgs (cwd : place) (t0 : time) (jobs : list job) (fs : files V) := run_batch cwd t0 0 jobs fs.
End batch.
