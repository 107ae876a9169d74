(** General facts about the FDTD step. *)
From Coq Require Import Reals ZArith String List Bool Lra Lia Psatz FunctionalExtensionality.
From Verif Require Import Base BaseLemmas Model_FDTD Spec_FDTD Proof_Torus.
Import ListNotations.
Open Scope R_scope.

Lemma bind_inv {A B} (x : res A) (f : A -> res B) b :
  bind x f = Ok b -> exists a, x = Ok a /\ f a = Ok b.
Proof. destruct x; cbn; intros H; [eauto|discriminate]. Qed.

Ltac binv H := let a := fresh "r" in let E := fresh "Er" in
  apply bind_inv in H as (a & E & H).


Lemma update_E_inv g g1 : update_E g = Ok g1 ->
  exists bs E3 ds,
    map_res (boundary_phi_E (g_N g) (g_H g)) (g_boundaries g) = Ok bs
    /\ fold_res (source_update_E (g_N g) (g_steps g)) (g_sources g)
         (fold_left (fun E b => boundary_update_E (g_N g) (g_courant g) (g_ie g) b E) bs (bulk_E g))
       = Ok E3
    /\ map_res (detect_E (g_N g) E3) (g_detectors g) = Ok ds
    /\ g1 = with_fields g E3 (g_H g) (g_steps g) bs ds.
Proof.
  unfold update_E. intros H. binv H. cbv zeta in H. binv H. binv H.
  inversion H; subst. do 3 eexists; repeat split; eassumption.
Qed.

Lemma update_H_inv g g1 : update_H g = Ok g1 ->
  exists bs H3 ds,
    map_res (boundary_phi_H (g_N g) (g_E g)) (g_boundaries g) = Ok bs
    /\ fold_res (source_update_H (g_N g) (g_steps g)) (g_sources g)
         (fold_left (fun H b => boundary_update_H (g_N g) (g_courant g) (g_im g) b H) bs (bulk_H g))
       = Ok H3
    /\ map_res (detect_H (g_N g) (g_spacing g) H3) (g_detectors g) = Ok ds
    /\ g1 = with_fields g (g_E g) H3 (g_steps g) bs ds.
Proof.
  unfold update_H. intros H. binv H. cbv zeta in H. binv H. binv H.
  inversion H; subst. do 3 eexists; repeat split; eassumption.
Qed.

Lemma step_inv g g' : step g = Ok g' ->
  exists g1 g2, update_E g = Ok g1 /\ update_H g1 = Ok g2
    /\ g' = with_fields g2 (g_E g2) (g_H g2) (S (g_steps g2)) (g_boundaries g2) (g_detectors g2).
Proof.
  unfold step. intros H. binv H. binv H. inversion H; subst. eauto 6.
Qed.

(** What a step never changes. *)
Definition same_static (g g' : grid) : Prop :=
  g_N g' = g_N g /\ g_spacing g' = g_spacing g /\ g_courant g' = g_courant g
  /\ g_time_step g' = g_time_step g /\ g_abs g' = g_abs g /\ g_ie g' = g_ie g
  /\ g_im g' = g_im g /\ g_sources g' = g_sources g /\ g_objects g' = g_objects g
  /\ g_attrs g' = g_attrs g.

Ltac static H :=
  destruct H as (SN & Ssp & Sco & Sts & Sab & Sie & Sim & Ssr & Sob & Sat).

Lemma same_static_refl g : same_static g g.
Proof. repeat split. Qed.
Lemma same_static_trans g1 g2 g3 : same_static g1 g2 -> same_static g2 g3 -> same_static g1 g3.
Proof.
  unfold same_static. intros H1 H2. decompose [and] H1. decompose [and] H2.
  repeat split; etransitivity; eassumption.
Qed.

Lemma step_static g g' : step g = Ok g' -> same_static g g' /\ g_steps g' = S (g_steps g).
Proof.
  intros H. apply step_inv in H as (g1 & g2 & HE & HH & ->).
  apply update_E_inv in HE as (bs & E3 & ds & _ & _ & _ & ->).
  apply update_H_inv in HH as (bs' & H3 & ds' & _ & _ & _ & ->).
  repeat split.
Qed.

Lemma run_steps_static n : forall g g', run_steps n g = Ok g' ->
  same_static g g' /\ g_steps g' = (n + g_steps g)%nat.
Proof.
  induction n as [|n IH]; intros g g' H; cbn in H.
  - inversion H; subst. split; [apply same_static_refl|reflexivity].
  - binv H. apply step_static in Er as [S1 T1]. apply IH in H as [S2 T2].
    split; [eapply same_static_trans; eassumption|]. rewrite T2, T1. lia.
Qed.

Lemma run_steps_add a b g :
  run_steps (a + b) g = bind (run_steps a g) (run_steps b).
Proof.
  revert g; induction a as [|a IH]; intros g; cbn [run_steps Nat.add].
  - reflexivity.
  - destruct (step g) as [g'|e]; cbn [bind]; [apply IH|reflexivity].
Qed.

Lemma run_steps_S n g : run_steps (S n) g = bind (run_steps n g) step.
Proof.
  rewrite <- Nat.add_1_r, run_steps_add. destruct (run_steps n g) as [g'|e]; cbn [bind]; [|reflexivity].
  cbn [run_steps]. destruct (step g'); reflexivity.
Qed.

(** ** Without PML the boundaries carry no state *)

Lemma no_pml_phi_E N H bs : no_pml bs -> map_res (boundary_phi_E N H) bs = Ok bs.
Proof.
  induction 1 as [|b bs Hb _ IH]; cbn [map_res]; [reflexivity|].
  rewrite IH. destruct b; cbn in *; try contradiction; reflexivity.
Qed.
Lemma no_pml_phi_H N E bs : no_pml bs -> map_res (boundary_phi_H N E) bs = Ok bs.
Proof.
  induction 1 as [|b bs Hb _ IH]; cbn [map_res]; [reflexivity|].
  rewrite IH. destruct b; cbn in *; try contradiction; reflexivity.
Qed.

(** One step of a grid without PML, all pieces named. *)
Lemma step_no_pml g g' : no_pml (g_boundaries g) -> step g = Ok g' ->
  exists dsE dsH,
    fold_res (source_update_E (g_N g) (g_steps g)) (g_sources g)
      (fold_left (fun E b => boundary_update_E (g_N g) (g_courant g) (g_ie g) b E)
                 (g_boundaries g) (bulk_E g)) = Ok (g_E g')
    /\ fold_res (source_update_H (g_N g) (g_steps g)) (g_sources g)
      (fold_left (fun H b => boundary_update_H (g_N g) (g_courant g) (g_im g) b H)
                 (g_boundaries g)
                 (fun p c => g_H g p c - g_courant g * g_im g p c * curl_E (g_N g) (g_E g') p c))
       = Ok (g_H g')
    /\ map_res (detect_E (g_N g) (g_E g')) (g_detectors g) = Ok dsE
    /\ map_res (detect_H (g_N g) (g_spacing g) (g_H g')) dsE = Ok dsH
    /\ g' = with_fields g (g_E g') (g_H g') (S (g_steps g)) (g_boundaries g) dsH.
Proof.
  intros Hb H. apply step_inv in H as (g1 & g2 & HE & HH & ->).
  apply update_E_inv in HE as (bs & E3 & ds & Hbs & HsE & Hd & ->).
  apply update_H_inv in HH as (bs' & H3 & ds' & Hbs' & HsH & Hd' & ->).
  cbn in *.
  rewrite (no_pml_phi_E _ _ _ Hb) in Hbs. inversion Hbs; subst bs.
  rewrite (no_pml_phi_H _ _ _ Hb) in Hbs'. inversion Hbs'; subst bs'.
  exists ds, ds'. repeat split; assumption.
Qed.
