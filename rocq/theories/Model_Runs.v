(** nidn/training/save_run.py ("save") and load_run.py ("load"): run files.

    Simplifications: a file system is a map from places to directories and files;
    links, permissions, limits on lengths and files deleted by others are left out; a pickle
    is represented by the config it holds, or by None when dumping was cut short;
    all OSErrors are one; the log messages are dropped.  The time is an argument. *)
From Coq Require Import String Ascii List Bool Arith.
From Verif Require Import Base.
Import ListNotations.
Open Scope string_scope.

(** [datetime.now()]; microseconds do not matter *)
Record time := mkTime { year : nat; month : nat; day : nat; hour : nat; minute : nat; second : nat }.

Definition digit (n : nat) : ascii := ascii_of_nat (48 + n mod 10).
Definition two (n : nat) : string := String (digit (n / 10)) (String (digit n) "").
Definition four (n : nat) : string := two (n / 100) ++ two n.
(** save 19: [strftime("%d-%m-%Y %H-%M-%S")] (years with four digits) *)
Definition dt_string (t : time) : string :=
  two (day t) ++ "-" ++ two (month t) ++ "-" ++ four (year t) ++ " "
  ++ two (hour t) ++ "-" ++ two (minute t) ++ "-" ++ two (second t).

(** save 22 and 24 *)
Definition folder_name (subfolder : string) : string := "../results/" ++ subfolder ++ "/".
Definition file_name (subfolder name : string) (t : time) : string :=
  "../results/" ++ subfolder ++ "/" ++ name ++ "_" ++ dt_string t ++ "_run.pk".

(** The parts of a path, between the slashes. *)
Fixpoint parts (s : string) : list string :=
  match s with
  | EmptyString => [""]
  | String c r =>
      if Ascii.eqb c "/" then "" :: parts r
      else match parts r with
           | w :: ws => String c w :: ws
           | [] => [String c ""]
           end
  end.

(** A place: the names from the inside out; [] is the root. *)
Definition place := list string.
Definition place_eqb (p q : place) : bool := if list_eq_dec string_dec p q then true else false.

Inductive node (V : Type) := Dir | File (content : option V).
Arguments Dir {V}.
Arguments File {V} _.
Definition files (V : Type) := place -> option (node V).
Definition put {V} (p : place) (n : node V) (fs : files V) : files V :=
  fun q => if place_eqb q p then Some n else fs q.

Inductive run_exn := OSError | PickleError.

Definition is_dot (c : string) : bool := String.eqb c "" || String.eqb c ".".

(** The operating system resolving the directories of a path. *)
Fixpoint walk {V} (fs : files V) (pos : place) (cs : list string) : option place :=
  match cs with
  | [] => Some pos
  | c :: r =>
      if is_dot c then walk fs pos r
      else if String.eqb c ".." then walk fs (tl pos) r
      else match fs (c :: pos) with
           | Some Dir => walk fs (c :: pos) r
           | _ => None
           end
  end.

(** save 22: [Path(…).mkdir(parents=True, exist_ok=True)] *)
Fixpoint mkdirs {V} (fs : files V) (pos : place) (cs : list string) : files V * bool :=
  match cs with
  | [] => (fs, true)
  | c :: r =>
      if is_dot c then mkdirs fs pos r
      else if String.eqb c ".." then mkdirs fs (tl pos) r
      else match fs (c :: pos) with
           | Some Dir => mkdirs fs (c :: pos) r
           | Some (File _) => (fs, false)
           | None => mkdirs (put (c :: pos) Dir fs) (c :: pos) r
           end
  end.

(** The place a path names, if its directories exist. *)
Definition locate {V} (fs : files V) (cwd : place) (path : string) : option place :=
  match walk fs cwd (removelast (parts path)) with
  | Some pos =>
      let c := last (parts path) "" in
      if is_dot c || String.eqb c ".." then None else Some (c :: pos)
  | None => None
  end.

(** How far a save gets: to the end, until the process is killed before the file
    is opened, or until dumping is cut short (by an unpicklable value or a crash). *)
Inductive progress := Completes | StopsBeforeOpening | StopsWhileDumping.

Section save.
Variable V : Type.
(** [run_cfg.name] *)
Variable name_of : V -> string.

(** save 8-28 *)
Definition save_run (cwd : place) (cfg : V) (subfolder : string) (t : time) (how : progress) (fs : files V)
    : files V * option run_exn :=
  let (fs1, made) := mkdirs fs cwd (parts (folder_name subfolder)) in
  if negb made then (fs1, Some OSError) else
  match how with
  | StopsBeforeOpening => (fs1, Some OSError)
  | _ =>
      match locate fs1 cwd (file_name subfolder (name_of cfg) t) with
      | None => (fs1, Some OSError)
      | Some p =>
          match fs1 p, how with
          | Some Dir, _ => (fs1, Some OSError)
          | _, Completes => (put p (File (Some cfg)) fs1, None)
          | _, _ => (put p (File None) fs1, Some PickleError)
          end
      end
  end.

(** load 6-17 *)
Definition load_run (cwd : place) (filename : string) (fs : files V) : V + run_exn :=
  match locate fs cwd filename with
  | None => inr OSError
  | Some p =>
      match fs p with
      | Some (File (Some cfg)) => inl cfg
      | Some (File None) => inr PickleError
      | _ => inr OSError
      end
  end.

(** A history of saves from one working directory. *)
Record saving := mkSaving { s_cfg : V; s_sub : string; s_time : time; s_how : progress }.
Definition do_saving (cwd : place) (fs : files V) (s : saving) : files V :=
  fst (save_run cwd (s_cfg s) (s_sub s) (s_time s) (s_how s) fs).
Definition do_savings (cwd : place) (fs : files V) (h : list saving) : files V := fold_left (do_saving cwd) h fs.
End save.
