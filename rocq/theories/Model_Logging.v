(** nidn/utils/set_log_level.py and the import of nidn/__init__.py: which messages
    are shown.

    Simplifications: handlers write to stderr and are never disabled; the levels are
    those loguru comes with; colours and the time in front of a message are left
    out.  Names and levels are ASCII strings ([upper] is that of ASCII letters). *)
From Coq Require Import String Ascii List Bool Arith.
From Verif Require Import Base.
Import ListNotations.
Open Scope string_scope.

(** The levels of loguru *)
Definition levels : list (string * nat) :=
  [("TRACE", 5); ("DEBUG", 10); ("INFO", 20); ("SUCCESS", 25); ("WARNING", 30); ("ERROR", 40); ("CRITICAL", 50)].
Definition level_no (name : string) : option nat :=
  match find (fun p => String.eqb (fst p) name) levels with Some p => Some (snd p) | None => None end.

(** A handler: its least level, and the package its messages must come from *)
Record handler := mkHandler { h_level : nat; h_filter : option string }.
(** A message: the module it is sent from, its level and its text *)
Record message := mkMessage { m_module : string; m_level : nat; m_text : string }.

(** loguru's filter by name: (name + ".")[:len(package) + 1] == package + "." *)
Definition accepts (h : handler) (m : message) : bool :=
  Nat.leb (h_level h) (m_level m)
  && match h_filter h with
     | None => true
     | Some p => String.eqb (substring 0 (String.length (p ++ ".")) (m_module m ++ ".")) (p ++ ".")
     end.

(** What a message makes the handlers write: its text, once for every handler that
    accepts it *)
Definition send (hs : list handler) (m : message) : list string :=
  map (fun _ => m_text m) (filter (fun h => accepts h m) hs).

(** [str.upper] *)
Definition upper_char (c : ascii) : ascii :=
  let n := nat_of_ascii c in if Nat.leb 97 n && Nat.leb n 122 then ascii_of_nat (n - 32) else c.
Fixpoint upper (s : string) : string :=
  match s with EmptyString => EmptyString | String c r => String (upper_char c) (upper r) end.

(** What a caller passes: a string, or something without [upper] *)
Inductive level_arg := LStr (s : string) | LOther.

(** set_log_level.py 5-19 [set_log_level]: the handlers afterwards, what is shown,
    and the exception, if any.  The old handlers are removed first. *)
Definition set_log_level (hs : list handler) (a : level_arg) : list handler * list string * option exn :=
  match a with
  | LOther => ([], [], Some AttributeError)
  | LStr s =>
      match level_no (upper s) with
      | None => ([], [], Some ValueError)
      | Some n =>
          let hs := [mkHandler n (Some "nidn")] in
          (hs, send hs (mkMessage "nidn.utils.set_log_level" 10 ("Setting LogLevel to " ++ upper s)), None)
      end
  end.

(** A session: a user sets the level (exceptions caught), adds and removes handlers
    of their own, and modules send messages. *)
Inductive event := SetLevel (a : level_arg) | AddHandler (h : handler) | RemoveAll | Send (m : message).
Definition event_step (x : list handler * list string) (e : event) : list handler * list string :=
  let (hs, out) := x in
  match e with
  | SetLevel a => let '(hs', o, _) := set_log_level hs a in (hs', out ++ o)%list
  | AddHandler h => ((hs ++ [h])%list, out)
  | RemoveAll => ([], out)
  | Send m => (hs, (out ++ send hs m)%list)
  end.
Definition session (hs : list handler) (es : list event) : list handler * list string := fold_left event_step es (hs, []).

(** __init__.py 30-43: what the import does; [device] is the environment variable
    TORCH_DEVICE, if it is set. *)
Definition import_events (device : option string) : list event :=
  [ SetLevel (LStr "INFO");
    Send (mkMessage "nidn" 20 ("Initialized NIDN for " ++ match device with Some d => d | None => "cpu" end));
    Send (mkMessage "nidn" 20 "Using double precision");
    Send (mkMessage "nidn" 20 "Switching log level to warning.");
    SetLevel (LStr "WARNING") ].
