(** Vocabulary for C97: messages shown. *)
From Coq Require Import String Ascii List.
From Verif Require Import Base Model_Logging.
Import ListNotations.
Local Open Scope string_scope.

(** A module of the package: the package itself or something below it *)
Definition of_nidn (name : string) : Prop := name = "nidn" \/ exists rest, name = "nidn." ++ rest.

(** The levels by name, written in any case *)
Definition level_named (s : string) (n : nat) : Prop :=
  In (upper s, n) [("TRACE", 5); ("DEBUG", 10); ("INFO", 20); ("SUCCESS", 25); ("WARNING", 30); ("ERROR", 40); ("CRITICAL", 50)].

(** Events that only send messages *)
Definition sends (es : list event) (ms : list message) : Prop := es = map Send ms.
