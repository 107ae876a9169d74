(** Property theorems C75: the listing of a config. *)
From Coq Require Import String Ascii List Bool Arith Lia ZArith.
From Verif Require Import Base PyVal Spec_Config Model_Print Spec_Print Proof_Print.
Import ListNotations.
Open Scope string_scope.

(** Every item appears once, in order; only the material collection is left out. *)
Theorem C75_complete : forall show cfg out,
  print_cfg show cfg = (out, None) ->
  exists texts, Forall2 (item_text show) cfg texts /\ out = fold_right append newline texts.
Proof. exact print_complete. Qed.
Print Assumptions C75_complete.
(** When it raises. *)
Theorem C75_raises : forall show cfg,
  (snd (print_cfg show cfg) = None <-> Forall (fun ke => ~ unprintable (snd ke)) cfg)
  /\ (snd (print_cfg show cfg) = Some TypeError <-> Exists (fun ke => unprintable (snd ke)) cfg)
  /\ (snd (print_cfg show cfg) = None \/ snd (print_cfg show cfg) = Some TypeError).
Proof. exact print_outcome. Qed.
Print Assumptions C75_raises.
Theorem C75_shown_before : forall show cfg out e,
  print_cfg show cfg = (out, Some e) ->
  exists pre k t post texts, cfg = (pre ++ (k, Plain (VObj t)) :: post)%list
  /\ Forall2 (item_text show) pre texts /\ out = fold_right append "" texts.
Proof. exact print_partial_output. Qed.
Print Assumptions C75_shown_before.
(** At most three values per line. *)
Theorem C75_lines : forall show cfg, barless show cfg -> at_most_per_line 3 (fst (print_cfg show cfg)).
Proof. exact print_lines. Qed.
Print Assumptions C75_lines.

(** The default config can be listed, but not once a training run has added its results. *)
Definition listed (c : config) : list (string * entry) := map (fun kv => (fst kv, Plain (snd kv))) c.
Theorem C75_default : forall show, snd (print_cfg show (listed default_config)) = None.
Proof. exact print_default. Qed.
Print Assumptions C75_default.
Theorem C75_after_training_refuted : exists cfg, forall show,
  snd (print_cfg show (listed cfg)) = None /\ snd (print_cfg show (listed (cfg ++ [("results", VObj true)])%list)) = Some TypeError.
Proof. exact print_results. Qed.
Print Assumptions C75_after_training_refuted.

Example C75_case : print_cfg (fun _ => "7")
  [("a", Plain (VBool true)); ("m", Collection); ("l", Plain (VList [])); ("b", Plain (VInt 7%Z)); ("c", Plain (VStr "x"))]
  = ("a                      : 1              |" ++ newline ++ newline ++ "l: 7" ++ newline
     ++ "b                      : 7              |c                      : x              |" ++ newline ++ newline, None).
Proof. reflexivity. Qed.
Example C75_case_stops : print_cfg (fun _ => "7") [("a", Plain (VInt 7%Z)); ("r", Plain (VObj true)); ("b", Plain (VInt 7%Z))]
  = ("a                      : 7              |", Some TypeError).
Proof. reflexivity. Qed.
Example C75_case_barless : barless (fun _ => "7") [("a", Plain (VBool true)); ("l", Array "1 2"); ("b", Plain (VInt 7%Z))]
  /\ ~ at_most_per_line 3 "a|b|c|d|".
Proof.
  split; [|discriminate]. intros k e [H|[H|[H|[]]]]; inversion H; split; reflexivity.
Qed.
