(** Property theorems C97: which messages are shown after [set_log_level] and after
    importing nidn.  [of_nidn] and [level_named] are defined in Spec_Logging.v. *)
From Coq Require Import String Ascii List Bool Arith Lia.
From Verif Require Import Base Model_Logging Spec_Logging Proof_Logging.
Import ListNotations.
Open Scope string_scope.

(** After the level has been set, a message is shown exactly once if its level is
    reached and it comes from a module of nidn, and not at all otherwise, whatever
    handlers there were. *)
Theorem C97_shown : forall hs es s n ms, level_named s n -> exists before,
  snd (session hs es) = before
  /\ exists during, (n <= 10 -> during = ["Setting LogLevel to " ++ upper s]) /\ (10 < n -> during = [])
  /\ exists after, snd (session hs (es ++ SetLevel (LStr s) :: map Send ms)) = (before ++ during ++ concat after)%list
    /\ Forall2 (fun m o => (n <= m_level m /\ of_nidn (m_module m) -> o = [m_text m]) /\ (~ (n <= m_level m /\ of_nidn (m_module m)) -> o = [])) ms after.
Proof. exact shown. Qed.
Print Assumptions C97_shown.
Example C97_levels : level_named "info" 20 /\ level_named "Warning" 30 /\ of_nidn "nidn.fdtd.grid" /\ ~ of_nidn "__main__" /\ ~ of_nidn "nidn_tools".
Proof.
  split; [cbn; tauto|]. split; [cbn; tauto|]. split; [right; exists "fdtd.grid"; reflexivity|].
  split; (intros [H|[r H]]; [discriminate|]); cbn in H; discriminate.
Qed.

(** A level that does not exist is a ValueError, something that is no string an
    AttributeError; either way nothing is shown any more, not even errors. *)
Theorem C97_refused : forall hs es a ms, (forall s n, a = LStr s -> ~ level_named s n) ->
  snd (set_log_level (fst (session hs es)) a) = Some (match a with LStr _ => ValueError | LOther => AttributeError end)
  /\ snd (session hs (es ++ SetLevel a :: map Send ms)) = snd (session hs es).
Proof. exact refused. Qed.
Print Assumptions C97_refused.
Example C97_no_level : forall n, ~ level_named "verbose" n.
Proof. intros n H. cbn in H. repeat (destruct H as [H|H]; [discriminate|]). destruct H. Qed.

(** The import removes all handlers there were, shows three lines, and leaves the
    level at WARNING for messages of nidn alone. *)
Theorem C97_import : forall hs d, session hs (import_events d)
  = ([mkHandler 30 (Some "nidn")],
     ["Initialized NIDN for " ++ match d with Some x => x | None => "cpu" end; "Using double precision"; "Switching log level to warning."]).
Proof. exact imported. Qed.
Print Assumptions C97_import.

(** Only the last setting counts: what was set or added before it makes no
    difference to what comes after, whatever that is. *)
Theorem C97_last_setting : forall hs es a es', exists o,
  session hs (es ++ SetLevel a :: es') = (fst (session [] (SetLevel a :: es')), (snd (session hs es) ++ o)%list)
  /\ o = snd (session [] (SetLevel a :: es')).
Proof. exact only_last. Qed.
Print Assumptions C97_last_setting.
