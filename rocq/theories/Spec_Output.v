(** Vocabulary for C72. *)
From Coq Require Import String List Bool Arith.
From Verif Require Import Base Model_FDTD Model_Register Model_Runs Model_Output.
Import ListNotations.
Open Scope nat_scope.
Open Scope string_scope.

(** An array of a .npz file by its name. *)
Fixpoint array (r : readings) (k : string) : option (list (list vec)) :=
  match r with [] => None | (k', v) :: t => if String.eqb k k' then Some v else array t k end.
(** The time steps run in a history. *)
Fixpoint steps_in (l : list op) : nat :=
  match l with [] => 0 | Run n :: r => n + steps_in r | _ :: r => steps_in r end.

(** A detector [save_data] can store: a line or block detector with a name. *)
Definition storable (d : option string * det_kind) : Prop := snd d <> DCurrent /\ fst d <> None.
Definition name_of_det (d : option string * det_kind) : string := match fst d with Some n => n | None => "" end.
(** What [save_data] stumbles over. *)
Definition stumbles (d : option string * det_kind) (e : exn) : Prop :=
  (snd d = DCurrent /\ e = KeyError) \/ (snd d <> DCurrent /\ fst d = None /\ e = TypeError).

(** The clock read six times within one second. *)
Definition steady (now : nat -> time) (t : time) : Prop := forall i, i < 6 -> now i = t.
(** Seconds since the year 0 of a calendar with equally long months (enough to
    compare moments of one day). *)
Definition moment (t : time) : nat :=
  second t + 60 * (minute t + 60 * (hour t + 24 * (day t + 31 * (month t + 12 * year t)))).

(** A place whose parts are proper names, and a place whose folders exist. *)
Definition named_place (p : place) : Prop := forall c, In c p -> c <> "" /\ c <> "." /\ c <> "..".
Definition folders_exist (fs : files stored) (p : place) : Prop := forall a b, p = (a ++ b)%list -> b <> [] -> fs b = Some Dir.
Definition a_file (fs : files stored) (p : place) : Prop := exists v, fs p = Some (File v).
(** The place of a simulation named by [n] and saved at time [t]. *)
Definition run_place (cwd : place) (n : option string) (t : time) : place :=
  ("fdtd_output_" ++ dec (year t) ++ "-" ++ dec (month t) ++ "-" ++ dec (day t) ++ "-"
    ++ dec (hour t) ++ "-" ++ dec (minute t) ++ "-" ++ dec (second t)
    ++ match n with None => "" | Some n => " (" ++ n ++ ")" end) :: "fdtd_output" :: cwd.
Definition slashless_name (n : option string) : Prop := forall m, n = Some m -> ~ exists a b, m = a ++ "/" ++ b.
(** The images directly in a folder, hidden ones excepted. *)
Definition image_in (folder p : place) : Prop :=
  exists a, p = (a ++ ".png") :: folder /\ forall b, a ++ ".png" <> "." ++ b.
