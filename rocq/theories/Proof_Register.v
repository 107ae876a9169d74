(** Proofs about registration. *)
From Coq Require Import Reals ZArith String List Bool Lra Lia Psatz.
From Verif Require Import Base BaseLemmas Model_Units Model_FDTD Model_Register Spec_FDTD Spec_Register Proof_Torus Proof_FDTD Proof_Energy Proof_Propagate Proof_Steps Proof_Linear Proof_Reset Proof_Cavity.
Import ListNotations.
Open Scope R_scope.

(** * Names *)

Lemma has_attr_In g n : has_attr g n = true <-> In n (g_attrs g).
Proof.
  unfold has_attr. rewrite existsb_exists. split.
  - intros (x & Hx & E). apply String.eqb_eq in E. subst; exact Hx.
  - intros H. exists n. split; [exact H|apply String.eqb_refl].
Qed.
Lemma has_attr_false g n : has_attr g n = false -> ~ In n (g_attrs g).
Proof. intros H K. apply has_attr_In in K. congruence. Qed.

Lemma claim_name_inv name g g' : claim_name name g = Ok g' ->
  same_physics g g' /\ g_objects g' = g_objects g
  /\ match name with
     | None => g_attrs g' = g_attrs g
     | Some n => ~ In n (g_attrs g) /\ g_attrs g' = n :: g_attrs g
     end.
Proof.
  unfold claim_name. destruct name as [n|].
  - destruct (has_attr g n) eqn:E; [discriminate|]. intros H; inversion H; subst.
    split; [repeat split|]. split; [reflexivity|]. split; [apply has_attr_false, E|reflexivity].
  - intros H; inversion H; subst. split; [repeat split|auto].
Qed.
Lemma claim_name_err name g e : claim_name name g = Err e ->
  e = ValueError /\ exists n, name = Some n /\ In n (g_attrs g).
Proof.
  unfold claim_name. destruct name as [n|]; [|discriminate].
  destruct (has_attr g n) eqn:E; [|discriminate]. intros H; inversion H.
  split; [reflexivity|]. exists n. split; [reflexivity|apply has_attr_In, E].
Qed.
Lemma claim_taken n g : In n (g_attrs g) -> claim_name (Some n) g = Err ValueError.
Proof. intros H. unfold claim_name. apply has_attr_In in H. rewrite H. reflexivity. Qed.

Lemma claim_nodup name g g' : claim_name name g = Ok g' -> NoDup (g_attrs g) -> NoDup (g_attrs g').
Proof.
  intros H ND. apply claim_name_inv in H as (_ & _ & H). destruct name; [|rewrite H; exact ND].
  destruct H as [H ->]. constructor; assumption.
Qed.
Lemma face_nodup ax hi g : has_attr g (face_attr ax hi) = false -> NoDup (g_attrs g) ->
  NoDup (g_attrs (claim_face ax hi g)).
Proof. intros H ND. cbn. constructor; [apply has_attr_false, H|exact ND]. Qed.
Lemma face_attr_inj a h a' h' : face_attr a h = face_attr a' h' -> a = a' /\ h = h'.
Proof. destruct a, h, a', h'; cbn; intros H; try discriminate; auto. Qed.

Lemma place_pml_nodup ax hi t a g : NoDup (g_attrs g) -> NoDup (g_attrs (fst (place_pml ax hi t a g))).
Proof.
  intros H. unfold place_pml. destruct (has_attr g (face_attr ax hi)) eqn:E; [exact H|].
  apply face_nodup; assumption.
Qed.
Lemma place_periodic_nodup ax g : NoDup (g_attrs g) -> NoDup (g_attrs (fst (place_periodic ax g))).
Proof.
  intros H. unfold place_periodic.
  destruct (has_attr g (face_attr ax false)) eqn:E1; [exact H|].
  destruct (has_attr g (face_attr ax true)) eqn:E2; [exact H|]. cbn.
  constructor; [|constructor; [apply has_attr_false, E1|exact H]].
  intros [K|K]; [destruct (face_attr_inj _ _ _ _ K); discriminate|]. apply (has_attr_false _ _ E2 K).
Qed.

Lemma setitem_nodup key c g : NoDup (g_attrs g) -> NoDup (g_attrs (fst (setitem key c g))).
Proof.
  intros ND. unfold setitem. destruct (pad_key key) as [[[x y] z]|]; [|exact ND].
  generalize (handle_key (g_spacing g) x) (handle_key (g_spacing g) y) (handle_key (g_spacing g) z).
  clear x y z. intros x y z.
  destruct c as [n|n a|n eps cond| |k n|n s|n s|n s]; cbn [register].
  - unfold register_periodic.
    destruct (boundary_slice x); cbn [bind]; [|exact ND].
    destruct (boundary_slice y); cbn [bind]; [|exact ND].
    destruct (boundary_slice z); cbn [bind]; [|exact ND].
    destruct (claim_name n g) as [g'|] eqn:E; cbn [bind]; [|exact ND].
    pose proof (claim_nodup _ _ _ E ND) as ND'.
    destruct (at_border _); [apply place_periodic_nodup, ND'|].
    destruct (at_border _); [apply place_periodic_nodup, ND'|].
    destruct (at_border _); [apply place_periodic_nodup, ND'|exact ND'].
  - unfold register_pml.
    destruct (pml_slice x); cbn [bind]; [|exact ND].
    destruct (pml_slice y); cbn [bind]; [|exact ND].
    destruct (pml_slice z); cbn [bind]; [|exact ND].
    destruct (claim_name n g) as [g'|] eqn:E; cbn [bind]; [|exact ND].
    pose proof (claim_nodup _ _ _ E ND) as ND'.
    repeat (match goal with |- context [match ?o with Some _ => _ | None => _ end] => destruct o end;
      [apply place_pml_nodup, ND'|]). exact ND'.
  - unfold register_object. destruct (claim_name n (add_object_ g)) as [g1|] eqn:E; [|exact ND].
    pose proof (claim_nodup _ _ _ E ND) as ND'.
    destruct (object_region (g_N g) x y z) as [[lo hi]|]; [|exact ND'].
    destruct (negb (object_fits (g_N g) lo hi)); [exact ND'|]. destruct cond; [|exact ND'].
    destruct (negb (absorb_fits _ _ _ _ _)); [exact ND'|]. destruct (raw_region (g_N g) x y z) as [[? ?]|]; exact ND'.
  - exact ND.
  - unfold register_detector. destruct (claim_name n g) as [g1|] eqn:E; [|exact ND].
    pose proof (claim_nodup _ _ _ E ND) as ND'.
    match goal with |- context [match ?o with Ok _ => _ | Err _ => _ end] => destruct o end; exact ND'.
  - unfold register_point. destruct (claim_name n g) as [g1|] eqn:E; [|exact ND].
    pose proof (claim_nodup _ _ _ E ND) as ND'.
    destruct x as [[|? [|]]|], y as [[|? [|]]|], z as [[|? [|]]|]; exact ND'.
  - unfold register_line. destruct (claim_name n g) as [g1|] eqn:E; [|exact ND].
    pose proof (claim_nodup _ _ _ E ND) as ND'.
    match goal with |- context [match ?o with Ok _ => _ | Err _ => _ end] => destruct o as [[|]|] end; try exact ND'.
    match goal with |- context [if ?o then _ else _] => destruct o end; exact ND'.
  - unfold register_plane. destruct (claim_name n g) as [g1|] eqn:E; [|exact ND].
    pose proof (claim_nodup _ _ _ E ND) as ND'.
    destruct (plane_place _ _ _ _ _) as [[[[? ?] ?] ?]|]; exact ND'.
Qed.

Lemma builtin_nodup : NoDup builtin_attrs.
Proof.
  unfold builtin_attrs.
  repeat (constructor; [let H := fresh in intros H; repeat (destruct H as [H|H]; [discriminate|]); exact H|]).
  constructor.
Qed.

Lemma make_grid_inv shape sp eps mu co g : make_grid shape sp eps mu co = Ok g ->
  g_attrs g = builtin_attrs /\ g_sources g = [] /\ g_boundaries g = [] /\ g_detectors g = []
  /\ g_E g = zero_field /\ g_H g = zero_field /\ g_abs g = zero_field /\ g_steps g = 0%nat
  /\ g_ie g = (fun _ _ => 1 / eps) /\ g_im g = (fun _ _ => 1 / mu) /\ g_spacing g = sp.
Proof.
  unfold make_grid. destruct shape as [|x [|y [|z [|]]]]; try discriminate. intros H.
  binv H. binv H. binv H. inversion H; subst. repeat split.
Qed.

(** Names stay unique under any sequence of assignments. *)
Lemma names_unique shape sp eps mu co g0 l : make_grid shape sp eps mu co = Ok g0 ->
  NoDup (g_attrs (assign_all l g0)).
Proof.
  intros H. apply make_grid_inv in H as (H & _).
  assert (ND : NoDup (g_attrs g0)) by (rewrite H; apply builtin_nodup). clear H. revert g0 ND.
  induction l as [|kc l IH]; intros g0 ND; [exact ND|]. apply IH, setitem_nodup, ND.
Qed.

(** ** What an assignment does to the component lists and the fields *)

Definition extends (g g' : grid) : Prop :=
  g_N g' = g_N g /\ g_courant g' = g_courant g /\ g_spacing g' = g_spacing g /\ g_time_step g' = g_time_step g
  /\ g_E g' = g_E g /\ g_H g' = g_H g /\ g_im g' = g_im g /\ g_steps g' = g_steps g
  /\ (exists l, g_sources g' = g_sources g ++ l)
  /\ (exists l, g_boundaries g' = g_boundaries g ++ l)
  /\ (exists l, g_detectors g' = g_detectors g ++ l)
  /\ (exists l, g_attrs g' = l ++ g_attrs g).

Lemma extends_refl g : extends g g.
Proof. unfold extends. repeat split; try (exists []; rewrite ?app_nil_r; reflexivity). Qed.
Lemma extends_trans g1 g2 g3 : extends g1 g2 -> extends g2 g3 -> extends g1 g3.
Proof.
  intros (A1 & A2 & A3 & A4 & A5 & A6 & A7 & A8 & [a9 A9] & [a10 A10] & [a11 A11] & [a12 A12])
         (B1 & B2 & B3 & B4 & B5 & B6 & B7 & B8 & [b9 B9] & [b10 B10] & [b11 B11] & [b12 B12]).
  unfold extends. repeat (split; [congruence|]).
  split; [exists (a9 ++ b9); rewrite B9, A9, app_assoc; reflexivity|].
  split; [exists (a10 ++ b10); rewrite B10, A10, app_assoc; reflexivity|].
  split; [exists (a11 ++ b11); rewrite B11, A11, app_assoc; reflexivity|].
  exists (b12 ++ a12). rewrite B12, A12, app_assoc. reflexivity.
Qed.

Ltac ext_tac := unfold extends; cbn; repeat split; first [ exists []; rewrite ?app_nil_r; reflexivity | eexists; reflexivity | eexists [_]; reflexivity | eexists [_;_]; reflexivity].

Lemma claim_extends name g g' : claim_name name g = Ok g' -> extends g g'.
Proof.
  unfold claim_name. destruct name as [n|].
  - destruct (has_attr g n); [discriminate|]. intros H; inversion H; subst. ext_tac.
  - intros H; inversion H; subst. apply extends_refl.
Qed.
Lemma add_b_ext b g : extends g (add_boundary_ b g).
Proof. ext_tac. Qed.
Lemma add_d_ext b g : extends g (add_detector_ b g).
Proof. ext_tac. Qed.
Lemma add_s_ext b g : extends g (add_source_ b g).
Proof. ext_tac. Qed.
Lemma face_ext ax hi g : extends g (claim_face ax hi g).
Proof. ext_tac. Qed.
Lemma place_pml_ext ax hi t a g : extends g (fst (place_pml ax hi t a g)).
Proof.
  unfold place_pml. destruct (has_attr _ _); cbn [fst]; [apply add_b_ext|].
  eapply extends_trans; [apply face_ext|apply add_b_ext].
Qed.
Lemma place_periodic_ext ax g : extends g (fst (place_periodic ax g)).
Proof.
  unfold place_periodic. destruct (has_attr _ _ || has_attr _ _); cbn [fst]; [apply add_b_ext|].
  eapply extends_trans; [|apply add_b_ext]. eapply extends_trans; apply face_ext.
Qed.

Lemma setitem_extends key c g : extends g (fst (setitem key c g)).
Proof.
  unfold setitem. destruct (pad_key key) as [[[x y] z]|]; [|apply extends_refl].
  generalize (handle_key (g_spacing g) x) (handle_key (g_spacing g) y) (handle_key (g_spacing g) z).
  clear x y z. intros x y z.
  destruct c as [n|n a|n eps cond| |k n|n s|n s|n s]; cbn [register].
  - unfold register_periodic.
    destruct (boundary_slice x); cbn [bind]; [|apply add_b_ext].
    destruct (boundary_slice y); cbn [bind]; [|apply add_b_ext].
    destruct (boundary_slice z); cbn [bind]; [|apply add_b_ext].
    destruct (claim_name n g) as [g'|] eqn:E; cbn [bind]; [|apply add_b_ext].
    eapply extends_trans; [apply (claim_extends _ _ _ E)|].
    destruct (at_border _); [apply place_periodic_ext|].
    destruct (at_border _); [apply place_periodic_ext|].
    destruct (at_border _); [apply place_periodic_ext|apply add_b_ext].
  - unfold register_pml.
    destruct (pml_slice x); cbn [bind]; [|apply add_b_ext].
    destruct (pml_slice y); cbn [bind]; [|apply add_b_ext].
    destruct (pml_slice z); cbn [bind]; [|apply add_b_ext].
    destruct (claim_name n g) as [g'|] eqn:E; cbn [bind]; [|apply add_b_ext].
    eapply extends_trans; [apply (claim_extends _ _ _ E)|].
    repeat (match goal with |- context [match ?o with Some _ => _ | None => _ end] => destruct o end;
      [apply place_pml_ext|]). apply add_b_ext.
  - unfold register_object. destruct (claim_name n (add_object_ g)) as [g1|] eqn:E; [|ext_tac].
    pose proof (claim_extends _ _ _ E) as X.
    assert (X' : extends g g1) by (eapply extends_trans; [|exact X]; ext_tac).
    assert (MX : forall ie ab, extends g (with_material ie ab g1))
      by (intros; eapply extends_trans; [exact X'|]; ext_tac).
    destruct (object_region (g_N g) x y z) as [[lo hi]|]; [|exact X'].
    destruct (negb (object_fits (g_N g) lo hi)); [exact X'|]. destruct cond; [|apply MX].
    destruct (negb (absorb_fits _ _ _ _ _)); [apply MX|]. destruct (raw_region (g_N g) x y z) as [[? ?]|]; apply MX.
  - apply extends_refl.
  - unfold register_detector. destruct (claim_name n g) as [g1|] eqn:E; [|apply add_d_ext].
    eapply extends_trans; [apply (claim_extends _ _ _ E)|].
    match goal with |- context [match ?o with Ok _ => _ | Err _ => _ end] => destruct o end; apply add_d_ext.
  - unfold register_point. destruct (claim_name n g) as [g1|] eqn:E; [|apply add_s_ext].
    eapply extends_trans; [apply (claim_extends _ _ _ E)|].
    destruct x as [[|? [|]]|], y as [[|? [|]]|], z as [[|? [|]]|]; apply add_s_ext.
  - unfold register_line. destruct (claim_name n g) as [g1|] eqn:E; [|apply add_s_ext].
    eapply extends_trans; [apply (claim_extends _ _ _ E)|].
    match goal with |- context [match ?o with Ok _ => _ | Err _ => _ end] => destruct o as [[|]|] end; try apply add_s_ext.
    match goal with |- context [if ?o then _ else _] => destruct o end; apply add_s_ext.
  - unfold register_plane. destruct (claim_name n g) as [g1|] eqn:E; [|apply add_s_ext].
    eapply extends_trans; [apply (claim_extends _ _ _ E)|].
    destruct (plane_place _ _ _ _ _) as [[[[? ?] ?] ?]|]; apply add_s_ext.
Qed.

Lemma assign_all_extends l : forall g, extends g (assign_all l g).
Proof.
  induction l as [|kc l IH]; intros g; [apply extends_refl|].
  eapply extends_trans; [apply setitem_extends|apply IH].
Qed.

(** ** Rejected components *)

(** A broken component that blocks every step. *)
Definition blocked (g : grid) : Prop :=
  In UnplacedSource (g_sources g) \/ In UnplacedDetector (g_detectors g) \/ In UnplacedPML (g_boundaries g).

Lemma blocked_extends g g' : extends g g' -> blocked g -> blocked g'.
Proof.
  intros (_ & _ & _ & _ & _ & _ & _ & _ & [a9 A9] & [a10 A10] & [a11 A11] & _) [H|[H|H]]; unfold blocked;
    rewrite ?A9, ?A10, ?A11, ?in_app_iff; auto.
Qed.
Lemma blocked_no_run g n : blocked g -> (0 < n)%nat -> forall g', run_steps n g <> Ok g'.
Proof.
  intros HB Hn g' H. assert (E : exists g', run_steps n g = Ok g') by eauto.
  apply run_raises_iff in E as [->|(B & D & S)]; [lia|].
  destruct HB as [H1|[H1|H1]].
  - specialize (S 0%nat Hn). rewrite Forall_forall in S. apply (S _ H1).
  - rewrite Forall_forall in D. apply (D _ H1).
  - rewrite Forall_forall in B. apply (B _ H1).
Qed.

Lemma rejected_blocks key c g g' e : is_vital c -> setitem key c g = (g', Some e) ->
  (exists x y z, pad_key key = Ok (x, y, z)) -> blocked g'.
Proof.
  intros HV H (x0 & y0 & z0 & Hk). unfold setitem in H. rewrite Hk in H.
  revert H. generalize (handle_key (g_spacing g) x0) (handle_key (g_spacing g) y0) (handle_key (g_spacing g) z0).
  intros x y z H. clear x0 y0 z0 Hk.
  assert (LB : forall h, blocked (add_boundary_ UnplacedPML h)) by (intros h; right; right; apply in_or_app; right; left; reflexivity).
  assert (LD : forall h, blocked (add_detector_ UnplacedDetector h)) by (intros h; right; left; apply in_or_app; right; left; reflexivity).
  assert (LS : forall h, blocked (add_source_ UnplacedSource h)) by (intros h; left; apply in_or_app; right; left; reflexivity).
  assert (PB : forall ax hi t a h, place_pml ax hi t a h = (g', Some e) -> blocked g').
  { intros ax hi t a h X. unfold place_pml in X. destruct (has_attr h (face_attr ax hi)); inversion X; subst; apply LB. }
  destruct c as [n|n a|n eps cond| |k n|n s|n s|n s]; cbn [register is_vital] in *; try contradiction.
  - unfold register_pml in H.
    destruct (pml_slice x); cbn [bind] in H; [|inversion H; apply LB].
    destruct (pml_slice y); cbn [bind] in H; [|inversion H; apply LB].
    destruct (pml_slice z); cbn [bind] in H; [|inversion H; apply LB].
    destruct (claim_name n g) as [g1|] eqn:E; cbn [bind] in H; [|inversion H; apply LB].
    repeat (match type of H with context [match ?o with Some _ => _ | None => _ end] => destruct o end;
      [eapply PB; exact H|]). inversion H; apply LB.
  - unfold register_detector in H. destruct (claim_name n g) as [g1|] eqn:E; [|inversion H; apply LD].
    match type of H with context [match ?o with Ok _ => _ | Err _ => _ end] => destruct o end; inversion H; apply LD.
  - unfold register_point in H. destruct (claim_name n g) as [g1|] eqn:E; [|inversion H; apply LS].
    destruct x as [[|? [|]]|], y as [[|? [|]]|], z as [[|? [|]]|]; inversion H; apply LS.
  - unfold register_line in H. destruct (claim_name n g) as [g1|] eqn:E; [|inversion H; apply LS].
    match type of H with context [match ?o with Ok _ => _ | Err _ => _ end] => destruct o as [[|]|] end;
      try (inversion H; apply LS).
    match type of H with context [if ?o then _ else _] => destruct o end; inversion H; apply LS.
  - unfold register_plane in H. destruct (claim_name n g) as [g1|] eqn:E; [|inversion H; apply LS].
    destruct (plane_place _ _ _ _ _) as [[[[? ?] ?] ?]|]; inversion H; apply LS.
Qed.

(** A rejected source, detector or PML makes every later step raise. *)
Lemma rejected_blocks_forever key c g g' e l n : is_vital c -> setitem key c g = (g', Some e) ->
  (1 <= length key <= 3)%nat -> (0 < n)%nat ->
  forall g'', run_steps n (assign_all l g') <> Ok g''.
Proof.
  intros HV H Hk Hn. apply blocked_no_run; [|exact Hn].
  eapply blocked_extends; [apply assign_all_extends|]. eapply rejected_blocks; try eassumption.
  destruct key as [|x [|y [|z [|]]]]; cbn in Hk; try lia; cbn; eauto.
Qed.

(** Taken names are refused. *)
Lemma taken_name_refused key c g n : (1 <= length key <= 3)%nat -> comp_name c = Some n -> In n (g_attrs g) ->
  exists g' e, setitem key c g = (g', Some e) /\ g_attrs g' = g_attrs g
    /\ g_E g' = g_E g /\ g_H g' = g_H g /\ g_ie g' = g_ie g /\ g_abs g' = g_abs g
    /\ (match c with CPeriodic _ | CPML _ _ => True | _ => e = ValueError end).
Proof.
  intros Hk Hc Hin.
  assert (exists x y z, pad_key key = Ok (x, y, z)) as (x0 & y0 & z0 & Hp)
    by (destruct key as [|x [|y [|z [|]]]]; cbn in Hk; try lia; cbn; eauto).
  unfold setitem. rewrite Hp.
  generalize (handle_key (g_spacing g) x0) (handle_key (g_spacing g) y0) (handle_key (g_spacing g) z0).
  intros x y z.
  assert (CT : forall h, g_attrs h = g_attrs g -> claim_name (Some n) h = Err ValueError)
    by (intros h Hh; apply claim_taken; rewrite Hh; exact Hin).
  destruct c as [m|m a|m eps cond| |k m|m s|m s|m s]; cbn [comp_name register] in *; try discriminate; subst m.
  - unfold register_periodic.
    destruct (boundary_slice x); cbn [bind]; [|do 2 eexists; repeat split].
    destruct (boundary_slice y); cbn [bind]; [|do 2 eexists; repeat split].
    destruct (boundary_slice z); cbn [bind]; [|do 2 eexists; repeat split].
    rewrite CT by reflexivity. do 2 eexists; repeat split.
  - unfold register_pml.
    destruct (pml_slice x); cbn [bind]; [|do 2 eexists; repeat split].
    destruct (pml_slice y); cbn [bind]; [|do 2 eexists; repeat split].
    destruct (pml_slice z); cbn [bind]; [|do 2 eexists; repeat split].
    rewrite CT by reflexivity. do 2 eexists; repeat split.
  - unfold register_object. rewrite CT by reflexivity. do 2 eexists; repeat split.
  - unfold register_detector. rewrite CT by reflexivity. do 2 eexists; repeat split.
  - unfold register_point. rewrite CT by reflexivity. do 2 eexists; repeat split.
  - unfold register_line. rewrite CT by reflexivity. do 2 eexists; repeat split.
  - unfold register_plane. rewrite CT by reflexivity. do 2 eexists; repeat split.
Qed.

(** ** Rejected objects change nothing physical *)

Definition with_meta (o : nat) (at_ : list string) (g : grid) : grid :=
  mkGrid (g_N g) (g_spacing g) (g_courant g) (g_time_step g)
         (g_E g) (g_H g) (g_abs g) (g_ie g) (g_im g) (g_steps g)
         (g_sources g) (g_boundaries g) (g_detectors g) o at_.

Lemma step_meta o at_ g : step (with_meta o at_ g) = bind (step g) (fun g' => Ok (with_meta o at_ g')).
Proof.
  unfold step, update_E, update_H. cbn [with_meta g_N g_H g_boundaries g_courant g_ie g_steps g_sources g_detectors].
  change (bulk_E (with_meta o at_ g)) with (bulk_E g).
  destruct (map_res (boundary_phi_E (g_N g) (g_H g)) (g_boundaries g)) as [bs|]; cbn [bind]; [|reflexivity].
  destruct (fold_res _ (g_sources g) _) as [E3|]; cbn [bind]; [|reflexivity].
  destruct (map_res (detect_E (g_N g) E3) (g_detectors g)) as [ds|]; cbn [bind]; [|reflexivity].
  cbn [with_fields with_meta g_N g_E g_H g_boundaries g_courant g_im g_steps g_sources g_detectors g_spacing].
  destruct (map_res (boundary_phi_H (g_N g) E3) bs); cbn [bind]; [|reflexivity].
  match goal with |- context [fold_res ?f ?l (fold_left ?h ?b (bulk_H ?gg))] =>
    match goal with |- context [fold_res f l (fold_left h b (bulk_H ?gg'))] =>
      change (bulk_H gg) with (bulk_H gg') end end.
  destruct (fold_res _ (g_sources g) _) as [H3|]; cbn [bind]; [|reflexivity].
  destruct (map_res (detect_H (g_N g) (g_spacing g) H3) ds); cbn [bind]; reflexivity.
Qed.
Lemma run_meta n o at_ : forall g, run_steps n (with_meta o at_ g) = bind (run_steps n g) (fun g' => Ok (with_meta o at_ g')).
Proof.
  induction n as [|n IH]; intros g; cbn [run_steps]; [reflexivity|].
  rewrite step_meta. destruct (step g); cbn [bind]; [apply IH|reflexivity].
Qed.
