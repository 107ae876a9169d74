(** Proofs for C37: what an accepted component adds to the lists of a grid. *)
From Coq Require Import Reals ZArith String List Bool Arith Lia.
From Verif Require Import Base Model_FDTD Model_Register Spec_Register Spec_Lists.
Import ListNotations.

Definition same_lists (g g' : grid) : Prop :=
  g_sources g' = g_sources g /\ g_boundaries g' = g_boundaries g /\ g_detectors g' = g_detectors g
  /\ g_objects g' = g_objects g.
Lemma claim_name_lists : forall n g g', claim_name n g = Ok g' -> same_lists g g'.
Proof.
  intros n g g' H. unfold claim_name in H. destruct n as [n|]; [|injection H as <-; repeat split].
  destruct (has_attr g n); [discriminate|]. injection H as <-. repeat split.
Qed.
Lemma grown_add : forall g g1 s, same_lists g g1 -> grown (1, 0, 0, 0)%nat g (add_source_ s g1).
Proof.
  intros g g1 s [A [B [C D]]]. exists [s], [], []. simpl. rewrite A, B, C, D, !app_nil_r.
  rewrite ?Nat.sub_diag. repeat split; try lia; try (f_equal; lia).
Qed.
Lemma grown_det : forall g g1 s, same_lists g g1 -> grown (0, 0, 1, 0)%nat g (add_detector_ s g1).
Proof.
  intros g g1 s [A [B [C D]]]. exists [], [], [s]. simpl. rewrite A, B, C, D, !app_nil_r.
  rewrite ?Nat.sub_diag. repeat split; try lia; try (f_equal; lia).
Qed.
Lemma grown_bnd : forall g g1 s, same_lists g g1 -> grown (0, 1, 0, 0)%nat g (add_boundary_ s g1).
Proof.
  intros g g1 s [A [B [C D]]]. exists [], [s], []. simpl. rewrite A, B, C, D, !app_nil_r.
  rewrite ?Nat.sub_diag. repeat split; try lia; try (f_equal; lia).
Qed.
Lemma grown_obj : forall g g1, same_lists (add_object_ g) g1 -> grown (0, 0, 0, 1)%nat g g1.
Proof.
  intros g g1 [A [B [C D]]]. exists [], [], []. rewrite A, B, C, D, !app_nil_r.
  assert (X : (g_objects (add_object_ g) - g_objects g = 1)%nat) by (cbn [add_object_ g_objects]; lia).
  rewrite X. repeat split. cbn [add_object_ g_objects]. lia.
Qed.
Lemma same_trans : forall a b c, same_lists a b -> same_lists b c -> same_lists a c.
Proof. intros a b c [A [B [C D]]] [A' [B' [C' D']]]. repeat split; congruence. Qed.

Lemma registered : forall key c g g', setitem key c g = (g', None) -> grown (added c) g g'.
Proof.
  intros key c g g' H. unfold setitem in H. destruct (pad_key key) as [[[x y] z]|e]; [|discriminate].
  revert H. generalize (handle_key (g_spacing g) x) (handle_key (g_spacing g) y) (handle_key (g_spacing g) z).
  clear. intros x y z H. destruct c; unfold register in H; simpl added.
  - (* periodic *)
    unfold register_periodic in H.
    destruct (boundary_slice x); [|discriminate]; simpl in H.
    destruct (boundary_slice y); [|discriminate]; simpl in H.
    destruct (boundary_slice z); [|discriminate]; simpl in H.
    destruct (claim_name name g) as [g1|] eqn:E; [|discriminate]. simpl in H.
    apply claim_name_lists in E.
    assert (P : forall ax, place_periodic ax g1 = (g', None) -> grown (0, 1, 0, 0)%nat g g').
    { intros ax K. unfold place_periodic in K. destruct (_ || _); [discriminate K|].
      injection K as <-. apply grown_bnd. exact E. }
    repeat match type of H with context [if ?b then _ else _] => destruct b; [exact (P _ H)|] end.
    discriminate.
  - unfold register_pml in H.
    destruct (pml_slice x); [|discriminate]; simpl in H.
    destruct (pml_slice y); [|discriminate]; simpl in H.
    destruct (pml_slice z); [|discriminate]; simpl in H.
    destruct (claim_name name g) as [g1|] eqn:E; [|discriminate]. simpl in H.
    apply claim_name_lists in E.
    assert (P : forall ax h t a', place_pml ax h t a' g1 = (g', None) -> grown (0, 1, 0, 0)%nat g g').
    { intros ax h t a' K. unfold place_pml in K. destruct (has_attr _ _); [discriminate K|].
      injection K as <-. apply grown_bnd. exact E. }
    repeat match type of H with context [match ?b with Some _ => _ | None => _ end] => destruct b; [exact (P _ _ _ _ H)|] end.
    discriminate.
  - unfold register_object in H.
    destruct (claim_name name (add_object_ g)) as [g1|] eqn:E; [|discriminate].
    apply claim_name_lists in E. destruct (object_region _ x y z) as [[lo hi]|]; [|discriminate].
    destruct (negb _); [discriminate|]. cbv zeta in H.
    apply grown_obj. apply (same_trans _ g1 _ E).
    repeat match type of H with
      | context [match ?m with Some _ => _ | None => _ end] => destruct m; try discriminate H
      | context [match ?m with Ok _ => _ | Err _ => _ end] => destruct m; try discriminate H
      | context [if ?b then _ else _] => destruct b; try discriminate H
      | context [match ?m with (_, _) => _ end] => destruct m
    end; injection H as <-; repeat split.
  - discriminate H.
  - unfold register_detector in H. destruct (claim_name name g) as [g1|] eqn:E; [|discriminate].
    apply claim_name_lists in E.
    destruct (match k with DLine => _ | _ => _ end); [|discriminate]. injection H as <-. apply grown_det. exact E.
  - unfold register_point in H. destruct (claim_name name g) as [g1|] eqn:E; [|discriminate].
    apply claim_name_lists in E.
    repeat match type of H with context [match ?m with _ => _ end] => destruct m; try discriminate H end.
    injection H as <-. apply grown_add; exact E.
  - unfold register_line in H. destruct (claim_name name g) as [g1|] eqn:E; [|discriminate].
    apply claim_name_lists in E. destruct (line_cells 2 _ x y z) as [[|p l]|]; try discriminate.
    destruct (Reqb _ _); [discriminate|]. injection H as <-. apply grown_add; exact E.
  - unfold register_plane in H. destruct (claim_name name g) as [g1|] eqn:E; [|discriminate].
    apply claim_name_lists in E. destruct (plane_place _ _ x y z) as [[[[lo hi] ep] hp]|]; [|discriminate].
    injection H as <-. apply grown_add; exact E.
Qed.
