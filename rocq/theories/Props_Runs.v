(** Property theorems C56: run files.  [valid_time], [slashless], [lead], [target],
    [target_of], [plain_subfolder] and [tidy] are defined in Spec_Runs.v. *)
From Coq Require Import String Ascii List Bool Arith Lia.
From Verif Require Import Base Model_Runs Spec_Runs Proof_Runs.
Import ListNotations.
Open Scope string_scope.

(** In any file system and with any names: what a completed save stored is loaded
    after any further saves, complete or cut short, to other files. *)
Theorem C56_kept : forall (V : Type) (name_of : V -> string) cwd fs cfg sub t how h fs',
  save_run V name_of cwd cfg sub t how fs = (fs', None) ->
  (forall s, In s h -> target_of name_of cwd s <> target cwd sub (name_of cfg) t) ->
  load_run V cwd (file_name sub (name_of cfg) t) (do_savings V name_of cwd fs' h) = inl cfg.
Proof. exact kept_loads. Qed.
Print Assumptions C56_kept.

(** A later save to the same file replaces it; one that is cut short destroys it. *)
Theorem C56_replaced : forall (V : Type) (name_of : V -> string) cwd fs cfg sub t how fs1 h s,
  save_run V name_of cwd cfg sub t how fs = (fs1, None) ->
  target_of name_of cwd s = target cwd sub (name_of cfg) t ->
  let fs2 := do_savings V name_of cwd fs1 h in
  let r := save_run V name_of cwd (s_cfg V s) (s_sub V s) (s_time V s) (s_how V s) fs2 in
  (snd r = None -> load_run V cwd (file_name sub (name_of cfg) t) (fst r) = inl (s_cfg V s))
  /\ (snd r = Some PickleError -> load_run V cwd (file_name sub (name_of cfg) t) (fst r) = inr PickleError).
Proof. exact later_loads. Qed.
Print Assumptions C56_replaced.

(** Files are the same exactly for the same folder, name and second (for names
    without slashes), ... *)
Theorem C56_same_file : forall cwd sub n t sub' n' t',
  slashless n -> slashless n' -> valid_time t -> valid_time t' ->
  (target cwd sub n t = target cwd sub' n' t' <->
   lead cwd (parts (folder_name sub)) = lead cwd (parts (folder_name sub')) /\ n = n' /\ t = t').
Proof. exact same_target. Qed.
Print Assumptions C56_same_file.
Theorem C56_file_name : forall sub n t n' t',
  valid_time t -> valid_time t' ->
  file_name sub n t = file_name sub n' t' -> n = n' /\ t = t'.
Proof. exact file_name_inj. Qed.
Print Assumptions C56_file_name.
(** ... which fails for names with slashes. *)
Theorem C56_slash_refuted : exists cwd sub n sub' n', n <> n' /\ sub <> sub' /\
  forall t, target cwd sub n t = target cwd sub' n' t.
Proof. exact same_target_refuted. Qed.
Print Assumptions C56_slash_refuted.

(** Saves without slashes in the name into plain subfolders of tidy results
    succeed, and leave them tidy, even when they are cut short. *)
Theorem C56_succeeds : forall (V : Type) (name_of : V -> string) cwd (fs : files V) cfg sub t how,
  tidy fs cwd -> plain_subfolder sub -> slashless (name_of cfg) ->
  tidy (fst (save_run V name_of cwd cfg sub t how fs)) cwd
  /\ (how = Completes -> snd (save_run V name_of cwd cfg sub t how fs) = None).
Proof. exact tidy_save. Qed.
Print Assumptions C56_succeeds.

(** Hence, in every history of such saves, each completed one is loaded again
    unless a later one has its folder, name and second. *)
Theorem C56_round_trip : forall (V : Type) (name_of : V -> string) cwd (fs : files V) h1 s h2, tidy fs cwd ->
  (forall s', In s' (h1 ++ s :: h2)%list ->
     plain_subfolder (s_sub V s') /\ slashless (name_of (s_cfg V s')) /\ valid_time (s_time V s')) ->
  s_how V s = Completes ->
  (forall s', In s' h2 -> name_of (s_cfg V s') <> name_of (s_cfg V s) \/ s_time V s' <> s_time V s
     \/ lead cwd (parts (folder_name (s_sub V s'))) <> lead cwd (parts (folder_name (s_sub V s)))) ->
  load_run V cwd (file_name (s_sub V s) (name_of (s_cfg V s)) (s_time V s))
    (do_savings V name_of cwd fs (h1 ++ s :: h2)%list) = inl (s_cfg V s).
Proof. exact run_round_trip. Qed.
Print Assumptions C56_round_trip.

(** The configs of the examples are their names; the working directory is /home/nidn. *)
Definition noon (s : nat) : time := mkTime 2024 2 29 12 0 s.
Definition home : place := ["nidn"; "home"].
Example C56_case_name : file_name "films" "silica" (noon 7) = "../results/films/silica_29-02-2024 12-00-07_run.pk".
Proof. reflexivity. Qed.
Example C56_case_target : target home "films" "silica" (noon 7) = ["silica_29-02-2024 12-00-07_run.pk"; "films"; "results"; "home"].
Proof. reflexivity. Qed.
Definition nothing_yet : files string := fun _ => None.
Example C56_case_tidy : tidy nothing_yet home /\ plain_subfolder "films/thin" /\ slashless "silica" /\ valid_time (noon 7).
Proof.
  split; [intros p n E; discriminate|]. split; [|split].
  - intros c [<-|[<-|[]]]; (split; [discriminate|]); intros [a E]; do 5 (destruct a as [|? a]; [discriminate|injection E as _ E || discriminate]); destruct a; discriminate.
  - intros [a [b E]]. do 6 (destruct a as [|? a]; [discriminate|injection E as _ E]). destruct a; discriminate.
  - unfold valid_time, noon. cbn. lia.
Qed.
Example C56_case_save : snd (save_run string (fun s => s) home "silica" "films" (noon 7) Completes nothing_yet) = None.
Proof. reflexivity. Qed.
(** A name with a slash needs a folder that is not made. *)
Example C56_case_slash : snd (save_run string (fun s => s) home "thin/silica" "films" (noon 7) Completes nothing_yet) = Some OSError.
Proof. reflexivity. Qed.
