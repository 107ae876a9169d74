(** Property theorems C70: running the configs of a folder.  [fresh], [fine], [stops],
    [run_file], [plot_place], [results_place] and [batch_place] are defined in
    Spec_Batch.v. *)
From Coq Require Import Reals String Ascii List Bool Arith Lia.
From Verif Require Import Base Cplx Model_Materials Model_EpsGrid Model_Plots Spec_Plots Proof_Plots Model_Runs Spec_Runs Model_Batch Spec_Batch Proof_Batch Proof_Batch2.
Import ListNotations.
Open Scope string_scope.

(** The batch comes to its end exactly if no config stops it. *)
Theorem C70_ends : forall (V : Type) (name_of : V -> string) cwd t0 jobs (fs : files V),
  fresh cwd t0 fs -> Forall (fine name_of) jobs ->
  (snd (run_cfgs V name_of cwd t0 jobs fs) = None <-> forall j, In j jobs -> stops j = None).
Proof. exact batch_ends. Qed.
Print Assumptions C70_ends.

(** The first config that does ends it: the later ones are not run. *)
Theorem C70_stops : forall (V : Type) (name_of : V -> string) cwd t0 a (j : job V) b s fs,
  fresh cwd t0 fs -> Forall (fine name_of) (a ++ j :: b)%list -> (forall x, In x a -> stops x = None) -> stops j = Some s ->
  snd (run_cfgs V name_of cwd t0 (a ++ j :: b)%list fs) = Some (List.length a, s)
  /\ run_cfgs V name_of cwd t0 (a ++ j :: b)%list fs = run_cfgs V name_of cwd t0 (a ++ [j])%list fs.
Proof. exact batch_stops. Qed.
Print Assumptions C70_stops.

(** A run that was saved can be loaded when the batch is over, however it ended, unless
    a later config has its name and was saved in the same second. *)
Theorem C70_saved : forall (V : Type) (name_of : V -> string) cwd t0 a (j : job V) b cfg fs,
  fresh cwd t0 fs -> Forall (fine name_of) (a ++ j :: b)%list ->
  (forall x, In x (j :: b) -> valid_time (j_time V x)) ->
  (forall x, In x a -> stops x = None) ->
  j_loads V j = true -> j_trained V j = Some cfg -> j_how V j = Completes ->
  (forall x cfg', In x b -> j_trained V x = Some cfg' -> name_of cfg' <> name_of cfg \/ j_time V x <> j_time V j) ->
  load_run V cwd (run_file t0 (name_of cfg) (j_time V j)) (fst (run_cfgs V name_of cwd t0 (a ++ j :: b)%list fs)) = inl cfg.
Proof. exact batch_saved. Qed.
Print Assumptions C70_saved.
(** Its plots are in its folder. *)
Theorem C70_plots : forall (V : Type) (name_of : V -> string) cwd t0 a (j : job V) b cfg f fs,
  fresh cwd t0 fs -> Forall (fine name_of) (a ++ j :: b)%list ->
  (forall x, In x a -> stops x = None) ->
  j_loads V j = true -> j_trained V j = Some cfg -> j_how V j = Completes -> In f (j_plots V j) ->
  exists c, fst (run_cfgs V name_of cwd t0 (a ++ j :: b)%list fs) (plot_place cwd t0 (name_of cfg) f) = Some (File c).
Proof. exact batch_plots. Qed.
Print Assumptions C70_plots.

(** Whatever was there before: a batch that came to its end has loaded, trained, saved and
    plotted every config, and all the plots are there. *)
Theorem C70_complete : forall (V : Type) (name_of : V -> string) cwd t0 jobs fs,
  Forall (fine name_of) jobs -> snd (run_cfgs V name_of cwd t0 jobs fs) = None ->
  forall j, In j jobs -> exists cfg, j_loads V j = true /\ j_trained V j = Some cfg /\ j_how V j = Completes /\ j_plots_end V j = true
  /\ forall f, In f (j_plots V j) -> exists c, fst (run_cfgs V name_of cwd t0 jobs fs) (plot_place cwd t0 (name_of cfg) f) = Some (File c).
Proof. exact ended_complete. Qed.
Print Assumptions C70_complete.

(** Files outside the folder of the batch are left alone. *)
Theorem C70_elsewhere : forall (V : Type) (name_of : V -> string) cwd t0 jobs (fs : files V) p,
  fresh cwd t0 fs -> Forall (fine name_of) jobs ->
  p <> results_place cwd -> (forall q, p <> (q ++ batch_place cwd t0)%list) ->
  fst (run_cfgs V name_of cwd t0 jobs fs) p = fs p.
Proof. exact batch_elsewhere. Qed.
Print Assumptions C70_elsewhere.

(** A config with fewer than four frequencies is trained and saved, but ends the
    batch: three of its plots are there and the configs after it are not run. *)
Theorem C70_few_frequencies : forall (V : Type) (name_of : V -> string) cwd t0 a (j : job V) b cfg fs
    pc mats eval spectrum eps pR pT,
  fresh cwd t0 fs -> Forall (fine name_of) (a ++ j :: b)%list ->
  (forall x, In x (a ++ j :: b)%list -> valid_time (j_time V x)) -> (forall x, In x a -> stops x = None) ->
  j_loads V j = true -> j_trained V j = Some cfg -> j_how V j = Completes ->
  (forall n, eval n = Ok (eps n) /\ fits pc (eps n)) -> some_cell pc -> good_files mats ->
  spectrum (eps 0%nat) = Ok (pR, pT) -> p_freqs pc <> [] ->
  List.length pR = List.length (p_freqs pc) -> List.length pT = List.length (p_freqs pc) ->
  List.length (p_target_R pc) = List.length (p_freqs pc) -> List.length (p_target_T pc) = List.length (p_freqs pc) ->
  (List.length (p_freqs pc) < 4)%nat ->
  (j_plots V j, j_plots_end V j) =
    (let r := save_all_plots pc mats eval spectrum (Ok tt) in (fst r, match snd r with None => true | Some _ => false end)) ->
  snd (run_cfgs V name_of cwd t0 (a ++ j :: b)%list fs) = Some (List.length a, Plotting)
  /\ run_cfgs V name_of cwd t0 (a ++ j :: b)%list fs = run_cfgs V name_of cwd t0 (a ++ [j])%list fs
  /\ load_run V cwd (run_file t0 (name_of cfg) (j_time V j)) (fst (run_cfgs V name_of cwd t0 (a ++ j :: b)%list fs)) = inl cfg
  /\ forall f, In f ["spectra_comparison.png"; "losses.png"; "model_grid.png"] ->
       exists c, fst (run_cfgs V name_of cwd t0 (a ++ j :: b)%list fs) (plot_place cwd t0 (name_of cfg) f) = Some (File c).
Proof. exact few_frequencies. Qed.
Print Assumptions C70_few_frequencies.

(** Two configs, the second one's plots fail: the working directory is /home/nidn. *)
Definition case_t (s : nat) : time := mkTime 2024 2 29 12 0 s.
Definition case_home : place := ["nidn"; "home"].
Definition case_job (name : string) (s : nat) (plots : list string) (ends : bool) : job string :=
  mkJob string true (Some name) (case_t s) Completes plots ends.
Definition case_jobs : list (job string) :=
  [case_job "silica" 1 plot_files true; case_job "gold" 2 ["spectra_comparison.png"; "losses.png"; "model_grid.png"] false; case_job "air" 3 plot_files true].
Example C70_case_hypotheses : fresh case_home (case_t 0) (fun _ : place => @None (node string)) /\ Forall (fine (fun s => s)) case_jobs
  /\ forall x, In x case_jobs -> valid_time (j_time string x).
Proof.
  split; [split; [reflexivity|discriminate]|]. split.
  - assert (S : forall s, In s ["silica"; "gold"; "air"] -> slashless s).
    { intros s [<-|[<-|[<-|[]]]]; repeat (apply Proof_Runs.slashless_cons; split; [discriminate|]); apply Proof_Runs.slashless_empty. }
    unfold case_jobs. repeat apply Forall_cons; try apply Forall_nil; (split; [intros cfg E; injection E as <-; apply S; cbn; auto|]); intros x Hx; cbn in *; tauto.
  - intros x [<-|[<-|[<-|[]]]]; unfold valid_time, case_t; cbn; lia.
Qed.
Example C70_case : snd (run_cfgs string (fun s => s) case_home (case_t 0) case_jobs (fun _ => None)) = Some (1%nat, Plotting)
  /\ load_run string case_home (run_file (case_t 0) "gold" (case_t 2)) (fst (run_cfgs string (fun s => s) case_home (case_t 0) case_jobs (fun _ => None))) = inl "gold"
  /\ load_run string case_home (run_file (case_t 0) "air" (case_t 3)) (fst (run_cfgs string (fun s => s) case_home (case_t 0) case_jobs (fun _ => None))) = inr OSError.
Proof. repeat split; vm_compute; reflexivity. Qed.
Example C70_complete_case : snd (run_cfgs string (fun s => s) case_home (case_t 0) [case_job "silica" 1 plot_files true] (fun _ => None)) = None
  /\ snd (run_cfgs string (fun s => s) case_home (case_t 0) [case_job "silica" 1 plot_files true]
       (fun p => if place_eqb p ("losses.png" :: ("silica_" ++ dt_string (case_t 0)) :: batch_place case_home (case_t 0)) then Some Dir else None)) = Some (0%nat, Plotting).
Proof. split; reflexivity. Qed.
