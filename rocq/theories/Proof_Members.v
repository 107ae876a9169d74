(** Names of members of the grid are taken from the start. *)
From Coq Require Import Reals ZArith String List Bool Lra Lia.
From Verif Require Import Base BaseLemmas Model_Units Model_FDTD Model_Register Spec_FDTD Spec_Register Spec_Members Proof_Register.
Import ListNotations.
Open Scope R_scope.

Lemma members_builtin n : In n grid_members <-> In n builtin_attrs.
Proof.
  split; intros H; cbn in H; repeat (destruct H as [H|H]; [subst n; cbn; tauto|]); destruct H.
Qed.
Lemma attrs_kept l g n : In n (g_attrs g) -> In n (g_attrs (assign_all l g)).
Proof.
  revert g. induction l as [|kc l IH]; intros g H; [exact H|]. apply IH.
  destruct (setitem_extends (fst kc) (snd kc) g) as (_ & _ & _ & _ & _ & _ & _ & _ & _ & _ & _ & [a E]).
  rewrite E. apply in_or_app. right. exact H.
Qed.
Lemma member_names_refused shape sp eps mu co g0 l key c n : make_grid shape sp eps mu co = Ok g0 ->
  (1 <= length key <= 3)%nat -> comp_name c = Some n -> In n grid_members ->
  exists g' e, setitem key c (assign_all l g0) = (g', Some e) /\ g_attrs g' = g_attrs (assign_all l g0).
Proof.
  intros H HK HC HN. apply make_grid_inv in H as (H & _).
  destruct (taken_name_refused key c (assign_all l g0) n HK HC) as (g' & e & E & A & _).
  - apply attrs_kept. rewrite H. apply members_builtin. exact HN.
  - exists g', e. split; assumption.
Qed.
Lemma fresh_names shape sp eps mu co g0 n : make_grid shape sp eps mu co = Ok g0 ->
  (In n (g_attrs g0) <-> In n grid_members).
Proof. intros H. apply make_grid_inv in H as (H & _). rewrite H. symmetry. apply members_builtin. Qed.
