(** Vocabulary for C56. *)
From Coq Require Import String Ascii List.
From Verif Require Import Model_Runs.
Import ListNotations.
Open Scope string_scope.

Definition valid_time (t : time) : Prop :=
  1000 <= year t < 10 * 1000 /\ 1 <= month t <= 12 /\ 1 <= day t <= 31 /\ hour t < 24 /\ minute t < 60 /\ second t < 60.

Definition slashless (s : string) : Prop := ~ exists a b, s = a ++ "/" ++ b.
Definition ends_with (s e : string) : Prop := exists a, s = a ++ e.

(** Where a path leads when every directory exists: "", "." stay, ".." goes up. *)
Fixpoint lead (pos : place) (cs : list string) : place :=
  match cs with
  | [] => pos
  | c :: r => if is_dot c then lead pos r else if String.eqb c ".." then lead (tl pos) r else lead (c :: pos) r
  end.
(** The file a save writes to. *)
Definition target (cwd : place) (subfolder name : string) (t : time) : place :=
  lead cwd (parts (file_name subfolder name t)).
Definition target_of {V} (name_of : V -> string) (cwd : place) (s : saving V) : place :=
  target cwd (s_sub V s) (name_of (s_cfg V s)) (s_time V s).

(** A subfolder that stays below the results and cannot be taken for a run file. *)
Definition plain_subfolder (sub : string) : Prop :=
  forall c, In c (parts sub) -> c <> ".." /\ ~ ends_with c "_run.pk".
(** Below the results there are run files and directories only. *)
Definition tidy {V} (fs : files V) (cwd : place) : Prop :=
  forall p n, fs (p ++ ("results" :: tl cwd))%list = Some n ->
    match n with
    | File _ => exists c q, p = c :: q /\ ends_with c "_run.pk"
    | Dir => forall c q, p = c :: q -> ~ ends_with c "_run.pk"
    end.
