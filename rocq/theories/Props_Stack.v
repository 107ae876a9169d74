(** Property theorems C47: layer bookkeeping of TRCWA. *)
From Coq Require Import Reals ZArith String List Bool Lia.
From Verif Require Import Base Model_Stack Spec_Stack Proof_Stack.
Import ListNotations.
Open Scope nat_scope.

(** C47: counters, list lengths and what every layer's entry refers to. *)
Theorem C47_bookkeeping : forall {T E P} (cs : list (layer_call T E P)),
  let s := add_layers cs empty_stack in
  Layer_N s = length cs
  /\ Uniform_N s = count is_uniform cs /\ length (Uniform_ep_list s) = Uniform_N s
  /\ GridLayer_N s = count is_grid cs /\ length (GridLayer_Nxy_list s) = GridLayer_N s
  /\ FourierLayer_N s = count is_fourier cs /\ length (FourierLayer_params s) = FourierLayer_N s
  /\ Patterned_N s = GridLayer_N s + FourierLayer_N s
  /\ length (id_list s) = length cs
  /\ thickness_list s = map call_thickness cs
  /\ (forall i c, nth_error cs i = Some c ->
        exists id, nth_error (id_list s) i = Some id /\ refers s i c id).
Proof. exact (@layer_bookkeeping). Qed.
Print Assumptions C47_bookkeeping.
(** No two patterned layers share a pattern number. *)
Theorem C47_pattern_numbers : forall {T E P} (cs : list (layer_call T E P)) i j c d pi pj,
  let s := add_layers cs empty_stack in
  i <> j -> nth_error cs i = Some c -> nth_error cs j = Some d ->
  is_uniform c = false -> is_uniform d = false ->
  (exists k l, nth_error (id_list s) i = Some [k; i; pi; l]) ->
  (exists k l, nth_error (id_list s) j = Some [k; j; pj; l]) -> pi <> pj.
Proof. exact (@pattern_numbers_distinct). Qed.
Print Assumptions C47_pattern_numbers.
Example C47_case :
  let cs := [Uniform 1 2; Grid 3 4 5; Fourier 6 7; Uniform 8 9; Grid 1 1 2] in
  let s := add_layers cs (@empty_stack nat nat nat) in
  id_list s = [[0;0;0]; [1;1;0;0]; [2;2;1;0]; [0;3;1]; [1;4;2;1]]
  /\ nth_error cs 1 = Some (Grid 3 4 5) /\ nth_error cs 4 = Some (Grid 1 1 2) /\ Layer_N s = 5.
Proof. repeat split. Qed.
