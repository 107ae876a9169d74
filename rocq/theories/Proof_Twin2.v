(** The polarization that nothing drives stays dark; cases of C111. *)
From Coq Require Import Reals ZArith String List Bool Lra Lia Psatz.
From Verif Require Proof_Plane Proof_Reset Proof_Cavity.
From Verif Require Import Base BaseLemmas Model_FDTD Model_Register Spec_FDTD Proof_FDTD Proof_Propagate Proof_Reverse Proof_Causal Spec_Twin Proof_Twin.
Import ListNotations.
Open Scope R_scope.

Lemma polarizations a z n g1 g2 g1' g2' : same_polarization a z g1 g2 -> run_steps n g1 = Ok g1' -> run_steps n g2 = Ok g2' ->
  forall p, in_grid (g_N g1) p -> (forall c, part a z c -> g_E g1' p c = g_E g2' p c) /\ (forall c, part a (negb z) c -> g_H g1' p c = g_H g2' p c).
Proof.
  intros T R1 R2 p G. destruct (twin_run _ _ _ _ _ _ _ T R1 R2) as (_ & _ & _ & _ & _ & TE & TH & _).
  rewrite (proj1 (Proof_Plane.run_frame _ _ _ R1)) in TE, TH. split; intros c C; auto.
Qed.

Section Dark.
  Variables (a : axis) (z : bool) (N : shape3).
  Hypothesis NZ : N a = 1%nat.
  Lemma phi_E_plain H bs bs' : no_pml bs -> map_res (boundary_phi_E N H) bs = Ok bs' -> bs' = bs.
  Proof using.
    clear NZ. intros P. revert bs'. induction P as [|b r Pb _ IH]; intros bs' X; cbn [map_res] in X; [injection X as <-; reflexivity|].
    apply bind_ok in X as (c & Y & X). apply bind_ok in X as (s & W & X). injection X as <-. rewrite (IH _ W).
    destruct b; cbn in Pb, Y; try contradiction; try discriminate; injection Y as <-; reflexivity.
  Qed.
  Lemma phi_H_plain E bs bs' : no_pml bs -> map_res (boundary_phi_H N E) bs = Ok bs' -> bs' = bs.
  Proof using.
    clear NZ. intros P. revert bs'. induction P as [|b r Pb _ IH]; intros bs' X; cbn [map_res] in X; [injection X as <-; reflexivity|].
    apply bind_ok in X as (c & Y & X). apply bind_ok in X as (s & W & X). injection X as <-. rewrite (IH _ W).
    destruct b; cbn in Pb, Y; try contradiction; try discriminate; injection Y as <-; reflexivity.
  Qed.
  Lemma update_E_dark co ie bs : no_pml bs -> forall E, same_part a z N E zero_field -> same_part a z N (fold_left (fun E b => boundary_update_E N co ie b E) bs E) zero_field.
  Proof using.
    clear NZ. induction 1 as [|b r Pb _ IH]; intros E HE; [exact HE|]. cbn [fold_left]. apply IH. clear IH. intros p c G C.
    destruct b as [ax|p1| |]; cbn in Pb; try contradiction; cbn [boundary_update_E]; try (apply HE; assumption).
    destruct (_ =? _)%nat; [|apply HE; assumption]. apply (HE (setc ax (N ax - 1) p)); [|exact C]. apply face_grid; [exact G|]. pose proof (G ax). lia.
  Qed.
  Lemma update_H_dark co im bs : no_pml bs -> forall H, same_part a (negb z) N H zero_field -> same_part a (negb z) N (fold_left (fun H b => boundary_update_H N co im b H) bs H) zero_field.
  Proof using.
    clear NZ. induction 1 as [|b r Pb _ IH]; intros E HE; [exact HE|]. cbn [fold_left]. apply IH. clear IH. intros p c G C.
    destruct b as [ax|p1| |]; cbn in Pb; try contradiction; cbn [boundary_update_H]; try (apply HE; assumption).
    destruct (_ =? _)%nat; [|apply HE; assumption]. apply (HE (setc ax 0 p)); [|exact C]. apply face_grid; [exact G|]. pose proof (G ax). lia.
  Qed.
  Lemma add_dark F p v : ~ part a z AZ -> same_part a z N F zero_field -> same_part a z N (add_at F p AZ v) zero_field.
  Proof using.
    clear NZ. intros K A q c G C. unfold add_at. assert (c <> AZ) by (intros ->; contradiction).
    destruct c; try congruence; cbn [axis_eqb]; rewrite andb_false_r; apply A; assumption.
  Qed.
  Lemma source_dark q s F F' : ~ part a z AZ -> drives_z s -> source_update_E N q s F = Ok F' -> same_part a z N F zero_field -> same_part a z N F' zero_field.
  Proof using.
    clear NZ. intros K D X A. destruct s as [cell amp sg|cells prof sg|lo hi ep hp amp per ph|]; cbn in D; try contradiction; cbn [source_update_E] in X.
    - apply bind_ok in X as (v & _ & X). apply bind_ok in X as (c & _ & X). injection X as <-. apply add_dark; assumption.
    - apply bind_ok in X as (v & _ & X). revert F A X. generalize (combine cells prof) as L. induction L as [|cv L IH]; intros F A X; cbn [fold_res] in X.
      + injection X as <-. exact A.
      + apply bind_ok in X as (G & Y & X). apply (IH G); [|exact X]. apply bind_ok in Y as (c & _ & Y). injection Y as <-. apply add_dark; assumption.
  Qed.
  Lemma sources_dark q ss : (~ part a z AZ /\ Forall drives_z ss) \/ ss = [] -> forall F F', fold_res (source_update_E N q) ss F = Ok F' -> same_part a z N F zero_field -> same_part a z N F' zero_field.
  Proof using.
    clear NZ. intros [[K D]| ->].
    - induction D as [|s ss Ds _ IH]; intros F F' X A; cbn [fold_res] in X; [injection X as <-; exact A|].
      apply bind_ok in X as (G & Y & X). eapply IH; [exact X|]. eapply source_dark; eassumption.
    - intros F F' X A. injection X as <-. exact A.
  Qed.
  Lemma sources_H_plain q ss : (~ part a z AZ /\ Forall drives_z ss) \/ ss = [] -> forall F F', fold_res (source_update_H N q) ss F = Ok F' -> F' = F.
  Proof using.
    clear NZ. intros [[_ D]| ->].
    - induction D as [|s ss Ds _ IH]; intros F F' X; cbn [fold_res] in X; [injection X as <-; reflexivity|].
      apply bind_ok in X as (G & Y & X). apply IH in X as ->. destruct s; cbn in Ds; try contradiction; cbn in Y; injection Y as <-; reflexivity.
    - intros F F' X. injection X as <-. reflexivity.
  Qed.
End Dark.

Lemma dark_step a z g g' : g_N g a = 1%nat -> no_pml (g_boundaries g) -> (~ part a z AZ /\ Forall drives_z (g_sources g)) \/ g_sources g = [] ->
  dark_polarization a z g -> step g = Ok g' -> dark_polarization a z g' /\ g_boundaries g' = g_boundaries g /\ g_sources g' = g_sources g /\ g_N g' = g_N g.
Proof.
  intros NZ P D (DE & DH) S. apply step_inv in S as (h & k & UE & UH & ->).
  apply update_E_inv in UE as (b & E & d & MB & FE & _ & ->). apply update_H_inv in UH as (b' & H & d' & MH & FH & _ & ->).
  cbn [with_fields g_boundaries g_sources g_N g_E g_H g_steps g_detectors g_courant g_im g_ie g_abs] in *.
  apply (phi_E_plain _ _ _ _ P) in MB as ->. apply (phi_H_plain _ _ _ _ P) in MH as ->. apply (sources_H_plain a z _ _ _ D) in FH as ->.
  assert (BE : same_part a z (g_N g) (bulk_E g) zero_field).
  { intros p c G C. unfold bulk_E. rewrite (DE p c G C), (curl_H_same a z (g_N g) NZ (g_H g) zero_field) by assumption.
    assert (Z : curl_H zero_field p c = 0) by (unfold curl_H, dbwd, zero_field; destruct c; repeat destruct (1 <=? _)%nat; ring).
    rewrite Z. unfold zero_field, Rdiv. ring. }
  assert (E3 : same_part a z (g_N g) E zero_field) by (eapply sources_dark; [exact D|exact FE|]; apply update_E_dark; assumption).
  unfold dark_polarization. cbn [with_fields g_boundaries g_sources g_N g_E g_H g_steps]. split; [|auto]. split; [exact E3|].
  apply update_H_dark; [exact P|]. intros p c G C. unfold bulk_H. cbn [with_fields g_N g_E g_H g_courant g_im].
  rewrite (DH p c G C), (curl_E_same a z (g_N g) NZ E zero_field) by assumption.
  assert (Z : curl_E (g_N g) zero_field p c = 0) by (unfold curl_E, dfwd, zero_field; destruct c; repeat destruct (_ <? _)%nat; ring).
  rewrite Z. unfold zero_field. ring.
Qed.
Lemma dark_run a z n : forall g g', g_N g a = 1%nat -> no_pml (g_boundaries g) -> (~ part a z AZ /\ Forall drives_z (g_sources g)) \/ g_sources g = [] ->
  dark_polarization a z g -> run_steps n g = Ok g' -> dark_polarization a z g'.
Proof.
  induction n as [|n IH]; intros g g' NZ P D K R; cbn [run_steps] in R; [injection R as <-; exact K|].
  apply bind_ok in R as (k & S & R). destruct (dark_step a z g k NZ P D K S) as (K' & B & So & N0).
  apply (IH k g'); [rewrite N0; exact NZ|rewrite B; exact P|rewrite So; exact D|exact K'|exact R].
Qed.

(** Cases: a periodic grid with a point source; two such grids that differ in E_x, H_z and in
    the permittivity along x. *)
Definition flat_grid (e h i : R) : grid :=
  mkGrid (shape_of 4 3 1) 1 (7 / 10) 1 (fun _ c => match c with AX => e | AY => 0 | AZ => 2 end) (fun _ c => match c with AZ => h | _ => 1 end)
    (fun _ _ => 0) (fun _ c => match c with AX => i | _ => / 2 end) (fun _ _ => 1) 0 [PointSource (1, 1, 0)%Z 1 (Continuous 8%Z 0)] [Periodic AX; Periodic AY] [] 0 [].
Lemma flat_runs n e h i : exists g, run_steps n (flat_grid e h i) = Ok g.
Proof.
  apply Proof_Reset.run_raises_iff. right. split; [repeat constructor|]. split; [constructor|intros k _].
  constructor; [|constructor]. cbn. unfold index_ok; cbn. repeat split; try lia; try lra; try discriminate.
Qed.
Lemma flat_same e h i e' h' i' : same_polarization AZ true (flat_grid e h i) (flat_grid e' h' i').
Proof.
  unfold same_polarization. cbn [flat_grid g_N g_courant g_steps g_sources g_E g_H g_ie g_abs g_im g_boundaries].
  repeat (split; [first [reflexivity|intros p c _ C; cbn in C; destruct c; first [reflexivity|congruence]]|]). repeat constructor.
Qed.
Lemma flat_case n : exists g1 g2, run_steps n (flat_grid 3 5 (/ 3)) = Ok g1 /\ run_steps n (flat_grid 7 0 1) = Ok g2
  /\ g_E g1 (2, 1, 0)%nat AZ = g_E g2 (2, 1, 0)%nat AZ /\ g_H g1 (2, 1, 0)%nat AX = g_H g2 (2, 1, 0)%nat AX.
Proof.
  destruct (flat_runs n 3 5 (/ 3)) as (g1 & R1). destruct (flat_runs n 7 0 1) as (g2 & R2). exists g1, g2. split; [exact R1|]. split; [exact R2|].
  destruct (polarizations AZ true n _ _ _ _ (flat_same _ _ _ _ _ _) R1 R2 (2, 1, 0)%nat) as [A B]; [intros [| |]; cbn; lia|].
  split; [apply A; reflexivity|apply B; discriminate].
Qed.
Lemma dark_case n i : exists g, run_steps n (flat_grid 0 0 i) = Ok g /\ g_E g (2, 1, 0)%nat AX = 0 /\ g_H g (2, 1, 0)%nat AZ = 0.
Proof.
  destruct (flat_runs n 0 0 i) as (g & R). exists g. split; [exact R|].
  assert (D : dark_polarization AZ false g).
  { apply (dark_run AZ false n (flat_grid 0 0 i) g); [reflexivity|repeat constructor|left; split; [intros K; apply K; reflexivity|repeat constructor]| |exact R].
    split; intros p c _ C; cbn in C; destruct c; first [reflexivity|congruence]. }
  destruct D as [A B]. rewrite (proj1 (Proof_Plane.run_frame _ _ _ R)) in A, B. split; [apply (A (2, 1, 0)%nat AX)|apply (B (2, 1, 0)%nat AZ)]; try discriminate; try reflexivity; intros [| |]; cbn; lia.
Qed.

(** A PML lights both polarizations. *)
Lemma dark_pml_fails z : exists g g', g_N g AZ = 1%nat /\ g_sources g = [] /\ dark_polarization AZ z g /\ step g = Ok g' /\ ~ dark_polarization AZ z g'.
Proof.
  destruct Proof_Cavity.pml_demo_steps as (g' & S). exists Proof_Cavity.pml_demo, g'. split; [reflexivity|]. split; [reflexivity|].
  split; [split; intros p c _ _; reflexivity|]. split; [exact S|]. intros [K _].
  rewrite (proj1 (Proof_Plane.run_frame 1 Proof_Cavity.pml_demo g' ltac:(cbn [run_steps]; rewrite S; reflexivity))) in K.
  set (c := if z then AZ else AX). specialize (K (0, 0, 0)%nat c).
  assert (V : g_E g' (0, 0, 0)%nat c = 0) by (apply K; [intros [| |]; cbn; lia|unfold c; destruct z; cbn; congruence]).
  rewrite (Proof_Reset.pml_silence_broken Proof_Cavity.pml_demo g' (Model_Register.make_pml AX false 2 Model_Register.default_pml_a (1/2)) eq_refl eq_refl (fun p c => conj eq_refl eq_refl) (fun x q c => eq_refl) S) in V.
  pose proof Proof_Cavity.bias_pos as B. unfold pml_bias in B.
  change (in_pml _ _ (0, 0, 0)%nat) with true in V. cbv iota in V. cbn [Proof_Cavity.pml_demo Proof_Cavity.bare g_courant g_ie] in V. unfold Proof_Cavity.one_field in V. lra.
Qed.
