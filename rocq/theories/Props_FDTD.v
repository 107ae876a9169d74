(** Property theorems C30-C36, C38, C40 and C61: the FDTD engine. *)
From Coq Require Import Reals ZArith String List Bool Lra Lia.
From Verif Require Import Base BaseLemmas Model_Units Model_FDTD Model_Register Spec_FDTD Proof_Torus Proof_FDTD Proof_Energy Proof_Propagate Proof_Steps Proof_Linear Proof_Reset Proof_Cavity.
Import ListNotations.
Open Scope R_scope.

(** A cavity of 4 x 3 x 1 cells, periodic along y, with walls along x, holding an
    electric field; the same cavity at rest with a pulsed point source. *)
Definition demo_E : field := fun p c => match p, c with (2%nat, _, _), AZ => 1 | _, _ => 0 end.
Definition demo : grid :=
  mkGrid (shape_of 4 3 1) 1 (99 / 100 * / sqrt (INR 2)) 1 demo_E zero_field
         zero_field one_field one_field 0 [] [Periodic AY] [FieldDetector [(1,0,0)%Z; (-1,1,0)%Z] [] []] 0 [].
Definition pulse : source := PointSource (1,1,0)%Z 3 (Hanning 1 1 1).
Definition demo_pulsed : grid :=
  mkGrid (shape_of 4 3 1) 1 (99 / 100 * / sqrt (INR 2)) 1 zero_field zero_field
         zero_field one_field one_field 0 [pulse] [Periodic AY] [] 0 [].

Lemma demo_courant : Rabs (99 / 100 * / sqrt (INR 2)) * sqrt (INR 2) = 99 / 100.
Proof.
  assert (0 < sqrt (INR 2)) by (apply sqrt_lt_R0; cbn; lra).
  assert (0 < / sqrt (INR 2)) by (apply Rinv_0_lt_compat; assumption).
  rewrite Rabs_right by lra. field. lra.
Qed.
Lemma demo_closed : closed_grid demo.
Proof.
  split; split.
  - intros [| |]; cbn; try discriminate. intros _ [[i j] k] [| |] _ H; cbn in *; subst; reflexivity.
  - intros [| |] H1 H2; cbn in H1, H2; try discriminate; try lia.
    intros [[i j] k] Hp. cbn. split; [intros -> [| |]; reflexivity|intros ->; reflexivity].
  - intros [| |]; cbn; try discriminate. intros _ [[i j] k] [| |] _ H; reflexivity.
  - intros [| |] H1 H2; cbn in H1, H2; try discriminate; try lia.
    intros [[i j] k] Hp. split; [intros _; reflexivity|intros _ [| |] _; reflexivity].
Qed.
Lemma demo_no_pml : no_pml (g_boundaries demo).
Proof. repeat constructor. Qed.
Lemma demo_quiet q : quiet_from q demo.
Proof. intros q' F _. split; reflexivity. Qed.
Lemma demo_passive : passive (1/2) demo.
Proof. intros p c _. cbn. unfold one_field, zero_field. lra. Qed.
Lemma demo_runs n : exists g, run_steps n demo = Ok g.
Proof.
  apply run_raises_iff. right. split; [repeat constructor|]. split; [|intros; constructor].
  repeat constructor; cbn; unfold index_ok; cbn; lia.
Qed.
Lemma pulse_ends : (hanning_end 1 1 1 <= Z.of_nat 8)%Z.
Proof.
  unfold hanning_end. rewrite <- (Rtrunc_IZR (Z.of_nat 8)). apply Rtrunc_le.
  pose proof PI_4. cbn. lra.
Qed.
Lemma pulsed_runs n : exists g, run_steps n demo_pulsed = Ok g.
Proof.
  apply run_raises_iff. right. split; [repeat constructor|]. split; [constructor|intros k _].
  constructor; [|constructor]. cbn. unfold index_ok; cbn. split; [split; lra|lia].
Qed.

(** C30 *)
Theorem C30_curls_adjoint : forall (N : shape3) (per : axis -> bool) (E H : field),
  (forall a, per a = true -> (1 < N a)%nat) ->
  closed_E per N E -> closed_H per N H ->
  pair_H per N H (curl_E N E) = pair_E per N E (curl_H H).
Proof. exact curls_adjoint. Qed.
Print Assumptions C30_curls_adjoint.
Theorem C30_curl_bound : forall (N : shape3) (per : axis -> bool) (E H : field),
  (forall a, per a = true -> (1 < N a)%nat) ->
  closed_E per N E -> closed_H per N H ->
  Rabs (pair_H per N H (curl_E N E))
  <= sqrt (INR (sim_dim N)) * (pair_E per N E E + pair_H per N H H).
Proof. exact curl_at_most_double. Qed.
Print Assumptions C30_curl_bound.
Example C30_magnetic_case : exists H, closed_H (periodic_on [Periodic AY] (shape_of 4 3 1)) (shape_of 4 3 1) H
  /\ pair_H (periodic_on [Periodic AY] (shape_of 4 3 1)) (shape_of 4 3 1) H (curl_E (shape_of 4 3 1) demo_E) <> 0.
Proof.
  exists (fun p c => match p, c with (1%nat, _, _), AY => 1 | _, _ => 0 end). split.
  - split.
    + intros [| |]; cbn; try discriminate. intros _ [[i j] k] [| |] _ H; cbn in *; subst; reflexivity.
    + intros [| |] H1 H2; cbn in H1, H2; try discriminate; try lia.
      intros [[i j] k] Hp. cbn. split; [intros ->; reflexivity|intros E [| |] Hc; subst; cbn; try reflexivity; congruence].
  - intros X. cbv -[Rplus Rminus Rmult Ropp IZR R0 R1] in X. lra.
Qed.
Example C30_case : closed_E (periodic_on [Periodic AY] (shape_of 4 3 1)) (shape_of 4 3 1) demo_E
  /\ curl_E (shape_of 4 3 1) demo_E (1,1,0)%nat AY = -1.
Proof.
  split; [apply demo_closed|]. cbn. unfold dfwd. cbn. ring.
Qed.

(** C31 *)
Theorem C31_energy_balance : forall g g1 g2,
  no_pml (g_boundaries g) -> quiet_from (g_steps g) g -> closed_grid g -> grid_material_ok g ->
  step g = Ok g1 -> step g1 = Ok g2 ->
  energy_between g1 g2 = energy_between g g1 - absorbed_between g1 g2.
Proof. exact energy_balance_step. Qed.
Print Assumptions C31_energy_balance.
Theorem C31_energy_conserved : forall n g g1 gn gn1,
  no_pml (g_boundaries g) -> quiet_from (g_steps g) g -> closed_grid g -> grid_material_ok g ->
  (forall p c, in_grid (g_N g) p -> g_abs g p c = 0) ->
  step g = Ok g1 -> run_steps n g = Ok gn -> step gn = Ok gn1 ->
  energy_between gn gn1 = energy_between g g1.
Proof. exact energy_conserved. Qed.
Print Assumptions C31_energy_conserved.
Theorem C31_bounded_for_ever : forall m n g g',
  0 < m -> passive m g ->
  no_pml (g_boundaries g) -> quiet_from (g_steps g) g -> closed_grid g ->
  Rabs (g_courant g) * sqrt (INR (sim_dim (g_N g))) < 1 ->
  run_steps n g = Ok g' ->
  total_square g'
  <= (/ m + Rabs (g_courant g) * sqrt (INR (sim_dim (g_N g))))
     / (1 - Rabs (g_courant g) * sqrt (INR (sim_dim (g_N g)))) * total_square g.
Proof. exact bounded_run. Qed.
Print Assumptions C31_bounded_for_ever.
Theorem C31_every_cell_bounded : forall m n g g',
  0 < m -> passive m g ->
  no_pml (g_boundaries g) -> quiet_from (g_steps g) g -> closed_grid g ->
  Rabs (g_courant g) * sqrt (INR (sim_dim (g_N g))) = 99 / 100 ->
  run_steps n g = Ok g' ->
  forall p c, in_grid (g_N g) p ->
    g_E g' p c ^ 2 <= (100 / m + 99) * total_square g
    /\ g_H g' p c ^ 2 <= (100 / m + 99) * total_square g.
Proof. exact bounded_pointwise. Qed.
Print Assumptions C31_every_cell_bounded.
Theorem C31_default_courant : forall shape sp eps mu g,
  make_grid shape sp eps mu None = Ok g ->
  Rabs (g_courant g) * sqrt (INR (sim_dim (g_N g))) = 99 / 100 /\ (1 <= sim_dim (g_N g))%nat.
Proof. exact default_courant. Qed.
Print Assumptions C31_default_courant.
Theorem C31_accepted_courant : forall shape sp eps mu c g,
  make_grid shape sp eps mu (Some c) = Ok g ->
  g_courant g = c /\ c * sqrt (INR (sim_dim (g_N g))) <= 1.
Proof. exact accepted_courant. Qed.
Print Assumptions C31_accepted_courant.
(** Negative Courant numbers pass, whatever their size. *)
Theorem C31_negative_courant_accepted : forall shape sp eps mu c g0,
  make_grid shape sp eps mu None = Ok g0 -> c <= 0 ->
  exists g, make_grid shape sp eps mu (Some c) = Ok g /\ g_courant g = c.
Proof. exact negative_courant. Qed.
Print Assumptions C31_negative_courant_accepted.
Theorem C31_interior_sources_keep_cavity_closed : forall n,
  forall g g', no_pml (g_boundaries g) ->
  Forall (interior_source (g_N g)) (g_sources g) -> closed_grid g ->
  run_steps n g = Ok g' -> closed_grid g' /\ g_boundaries g' = g_boundaries g.
Proof. exact closed_driven_run. Qed.
Print Assumptions C31_interior_sources_keep_cavity_closed.
Theorem C31_pulsed_cavity_bounded : forall m T n g0 gT g,
  0 < m -> passive m g0 ->
  resting g0 -> no_pml (g_boundaries g0) ->
  Forall (interior_source (g_N g0)) (g_sources g0) ->
  Forall (pulse_over (g_N g0) (g_steps g0 + T)) (g_sources g0) ->
  Rabs (g_courant g0) * sqrt (INR (sim_dim (g_N g0))) = 99 / 100 ->
  run_steps T g0 = Ok gT -> run_steps n gT = Ok g ->
  forall p c, in_grid (g_N g0) p ->
    g_E g p c ^ 2 <= (100 / m + 99) * total_square gT
    /\ g_H g p c ^ 2 <= (100 / m + 99) * total_square gT.
Proof. exact pulsed_cavity_bounded. Qed.
Print Assumptions C31_pulsed_cavity_bounded.
(** Non-zero fields on a wall: the energy of the plain statement is not
    conserved. *)
Theorem C31_energy_without_wall_condition_refuted : exists g g1 g2,
  g_boundaries g = [] /\ g_sources g = [] /\ grid_material_ok g
  /\ (forall p c, g_abs g p c = 0) /\ Rabs (g_courant g) * sqrt (INR (sim_dim (g_N g))) = / 2
  /\ step g = Ok g1 /\ step g1 = Ok g2
  /\ energy_between g g1 = 1 /\ energy_between g1 g2 = 3 / 2.
Proof. exact energy_needs_walls. Qed.
Print Assumptions C31_energy_without_wall_condition_refuted.
Example C31_grids_case : (exists g, make_grid [PInt 4; PInt 3; PInt 1] 1 1 1 None = Ok g)
  /\ exists g, make_grid [PInt 4; PInt 3; PInt 1] 1 1 1 (Some (1/2)) = Ok g.
Proof.
  split; [eexists; reflexivity|].
  destruct (make_grid [PInt 4; PInt 3; PInt 1] 1 1 1 (Some (1/2))) as [g|e] eqn:E; [eauto|exfalso].
  revert E. unfold make_grid. cbn [handle_distance].
  change (max_courant (sim_dim (shape_of (Z.to_nat 4) (Z.to_nat 3) (Z.to_nat 1)))) with (Ok (/ sqrt (INR 2))).
  cbn [bind]. rewrite (proj2 (Rltb_false (/ sqrt (INR 2)) (1/2))); [cbn; discriminate|].
  replace (1/2) with (/ 2) by lra. apply Rinv_le_contravar; [apply sqrt_lt_R0; cbn; lra|].
  apply Rle_trans with (sqrt (2 * 2)); [|rewrite sqrt_square; lra]. apply sqrt_le_1_alt. cbn. lra.
Qed.
Example C31_case : 0 < 1/2 /\ passive (1/2) demo /\ no_pml (g_boundaries demo) /\ quiet_from (g_steps demo) demo
  /\ closed_grid demo /\ Rabs (g_courant demo) * sqrt (INR (sim_dim (g_N demo))) = 99 / 100
  /\ (forall n, exists g, run_steps n demo = Ok g) /\ g_E demo (2,1,0)%nat AZ = 1.
Proof.
  split; [lra|]. split; [apply demo_passive|]. split; [apply demo_no_pml|]. split; [apply demo_quiet|].
  split; [apply demo_closed|]. split; [apply demo_courant|]. split; [apply demo_runs|reflexivity].
Qed.
Example C31_pulsed_case : passive (1/2) demo_pulsed /\ resting demo_pulsed
  /\ Forall (interior_source (g_N demo_pulsed)) (g_sources demo_pulsed)
  /\ Forall (pulse_over (g_N demo_pulsed) (g_steps demo_pulsed + 8)) (g_sources demo_pulsed)
  /\ (forall n, exists g, run_steps n demo_pulsed = Ok g).
Proof.
  split; [intros p c _; cbn; unfold one_field, zero_field; lra|].
  split; [intros p c _; split; reflexivity|].
  split; [constructor; [|constructor]; cbn; intros p X; inversion X; subst; intros [| |]; cbn; lia|].
  split; [constructor; [|constructor]|apply pulsed_runs].
  cbn [pulse_over pulse]. split; [eexists; reflexivity|]. split; [lra|]. split; [lra|]. apply pulse_ends.
Qed.

(** C32 *)
Theorem C32_superposition : forall n a b,
  forall g1 g2 g3 g1' g2' g3', superposition a b g1 g2 g3 ->
  (a + b = 1 \/ no_pml (g_boundaries g3)) ->
  run_steps n g1 = Ok g1' -> run_steps n g2 = Ok g2' -> run_steps n g3 = Ok g3' ->
  superposition a b g1' g2' g3'.
Proof. exact superposition_run. Qed.
Print Assumptions C32_superposition.
(** With a PML only combinations with a + b = 1 are covered; the sum of two
    simulations is not one. *)
Theorem C32_sum_with_pml_refuted : exists g1, superposition 1 1 pml_demo pml_demo pml_demo
  /\ step pml_demo = Ok g1 /\ ~ superposed (g_N g1) 1 1 (g_E g1) (g_E g1) (g_E g1).
Proof. exact superposition_pml_fails. Qed.
Print Assumptions C32_sum_with_pml_refuted.
Definition demo_source (amp : R) (s : list source) : grid :=
  mkGrid (shape_of 4 3 1) 1 (99 / 100 * / sqrt (INR 2)) 1 (fun p c => amp * demo_E p c) zero_field
         zero_field one_field one_field 0 s [Periodic AY] [] 0 [].
Example C32_case :
  superposition 2 5 (demo_source 1 [PointSource (1,1,0)%Z 1 (Continuous 7 0)])
    (demo_source 3 [PointSource (2,1,0)%Z 4 (Continuous 9 0)])
    (demo_source 17 [PointSource (1,1,0)%Z (2 * 1) (Continuous 7 0); PointSource (2,1,0)%Z (5 * 4) (Continuous 9 0)])
  /\ no_pml [Periodic AY].
Proof.
  split; [|repeat constructor]. unfold superposition.
  do 7 (split; [solve [repeat split; reflexivity | reflexivity | repeat constructor]|]).
  split; [repeat constructor|].
  split; intros p c _; cbn; unfold zero_field; ring.
Qed.

(** C33 *)
Theorem C33_one_cell : forall n p0 g1 g2 g1' g2',
  differ_at_cell p0 g1 g2 ->
  run_steps n g1 = Ok g1' -> run_steps n g2 = Ok g2' ->
  forall p c a, in_grid (g_N g1) p -> no_wrap a (g_boundaries g1) ->
    (n < dist1 (coord a p) (coord a p0))%nat ->
    g_E g1' p c = g_E g2' p c /\ g_H g1' p c = g_H g2' p c.
Proof. exact cell_change_stays_near. Qed.
Print Assumptions C33_one_cell.
Theorem C33_plane_or_source : forall n a x0 g1 g2 g1' g2',
  differ_in_plane a x0 g1 g2 -> no_wrap a (g_boundaries g1) ->
  run_steps n g1 = Ok g1' -> run_steps n g2 = Ok g2' ->
  forall p c, in_grid (g_N g1) p -> (n < dist1 (coord a p) x0)%nat ->
    g_E g1' p c = g_E g2' p c /\ g_H g1' p c = g_H g2' p c.
Proof. exact change_stays_near. Qed.
Print Assumptions C33_plane_or_source.
Theorem C33_far_detectors : forall n a x0 g1 g2 g1' g2' i cells Es1 Hs1 Es2 Hs2,
  differ_in_plane a x0 g1 g2 -> no_wrap a (g_boundaries g1) ->
  run_steps n g1 = Ok g1' -> run_steps n g2 = Ok g2' ->
  nth_error (g_detectors g1) i = Some (FieldDetector cells Es1 Hs1) ->
  nth_error (g_detectors g2) i = Some (FieldDetector cells Es2 Hs2) ->
  recordings (FieldDetector cells Es1 Hs1) = recordings (FieldDetector cells Es2 Hs2) ->
  (forall cell p, In cell cells -> resolve3 (g_N g1) cell = Ok p -> (n < dist1 (coord a p) x0)%nat) ->
  exists d1 d2, nth_error (g_detectors g1') i = Some d1 /\ nth_error (g_detectors g2') i = Some d2
    /\ recordings d1 = recordings d2.
Proof. exact change_not_recorded. Qed.
Print Assumptions C33_far_detectors.
Definition demo_detected (E : field) : grid :=
  mkGrid (shape_of 4 3 1) 1 (99 / 100 * / sqrt (INR 2)) 1 E zero_field
         zero_field one_field one_field 0 [] [Periodic AY]
         [FieldDetector [(3,0,0)%Z; (-1,1,0)%Z] [] []; CurrentDetector [(2,1,0)%Z] []] 0 [].
Example C33_detector_case :
  differ_in_plane AX 0 (demo_detected demo_E) (demo_detected (add_at demo_E (0,0,0)%nat AX 5))
  /\ (forall n E, exists g, run_steps n (demo_detected E) = Ok g)
  /\ forall cell p, In cell [(3,0,0)%Z; (-1,1,0)%Z] -> resolve3 (shape_of 4 3 1) cell = Ok p ->
       (2 < dist1 (coord AX p) 0)%nat.
Proof.
  split; [|split].
  - unfold differ_in_plane. do 5 (split; [reflexivity|]). split; [constructor|].
    intros p c _ Hp. split; [|repeat split]. cbn [g_E demo_detected].
    rewrite add_at_other; [reflexivity|]. apply pos_eqb_neq. intros X. apply Hp. rewrite <- X. reflexivity.
  - intros n E. apply run_raises_iff. right. split; [repeat constructor|]. split; [|intros; constructor].
    repeat constructor; cbn; unfold index_ok; cbn; lia.
  - intros cell p [<-|[<-|[]]] H; vm_compute in H; inversion H; subst; cbn; lia.
Qed.
Example C33_case : differ_in_plane AX 0 (demo_source 1 []) (demo_source 1 [PointSource (0,1,0)%Z 1 (Continuous 7 0)])
  /\ no_wrap AX [Periodic AY] /\ (2 < dist1 (coord AX (3,1,0)%nat) 0)%nat
  /\ differ_at_cell (0,0,0)%nat (demo_source 1 [])
       (mkGrid (shape_of 4 3 1) 1 (99 / 100 * / sqrt (INR 2)) 1 (add_at (fun p c => 1 * demo_E p c) (0,0,0)%nat AX 5)
          zero_field zero_field one_field one_field 0 [] [Periodic AY] [] 0 []).
Proof.
  split; [|split; [|split]].
  - unfold differ_in_plane. do 5 (split; [reflexivity|]). split.
    + apply sm_right; [|constructor]. intros p X. inversion X; reflexivity.
    + intros p c _ _. repeat split.
  - repeat constructor.
  - cbn. lia.
  - unfold differ_at_cell. do 6 (split; [reflexivity|]). intros p c _ Hne. split; [|repeat split].
    cbn [g_E demo_source]. rewrite add_at_other; [reflexivity|]. apply pos_eqb_neq. congruence.
Qed.

(** C34 *)
Theorem C34_divergence_constant : forall n mu,
  forall g g', g_boundaries g = [] -> Forall soft (g_sources g) ->
  (forall p c, in_grid (g_N g) p -> g_im g p c = mu) -> run_steps n g = Ok g' ->
  forall p, in_grid (g_N g) p -> div_H (g_N g) (g_H g') p = div_H (g_N g) (g_H g) p.
Proof. exact div_run. Qed.
Print Assumptions C34_divergence_constant.
Example C34_case : exists p : pos, let g := bare (shape_of 3 3 3) zero_field (fun p c => INR (coord c p)) [] in
  g_boundaries g = [] /\ Forall soft (g_sources g)
  /\ (forall p c, in_grid (g_N g) p -> g_im g p c = 1) /\ in_grid (g_N g) p /\ div_H (g_N g) (g_H g) p = 3.
Proof.
  exists (1,1,1)%nat. cbn. split; [reflexivity|]. split; [constructor|].
  split; [intros; reflexivity|]. split; [intros [| |]; cbn; lia|]. unfold div_H, sum3. cbn. ring.
Qed.

(** C35 *)
Theorem C35_run_splits : forall a b g,
  (0 <= a)%Z -> (0 <= b)%Z ->
  run_int (a + b) g = bind (run_int a g) (run_int b).
Proof. exact run_int_add. Qed.
Print Assumptions C35_run_splits.
Theorem C35_nonpositive_runs_do_nothing : forall a g,
  (a <= 0)%Z -> run_int a g = Ok g.
Proof. exact run_int_neg. Qed.
Print Assumptions C35_nonpositive_runs_do_nothing.
Theorem C35_run_counts : forall n g g',
  run_int n g = Ok g' ->
  g_steps g' = (g_steps g + Z.to_nat n)%nat
  /\ time_passed g' = time_passed g + INR (Z.to_nat n) * g_time_step g.
Proof. exact run_counts. Qed.
Print Assumptions C35_run_counts.
Theorem C35_run_seconds : forall t g g',
  0 <= t -> 0 < g_time_step g -> run_float t g = Ok g' ->
  time_passed g' <= time_passed g + t < time_passed g' + g_time_step g.
Proof. exact run_float_steps. Qed.
Print Assumptions C35_run_seconds.
Theorem C35_reset : forall g,
  g_steps (reset g) = 0%nat /\ time_passed (reset g) = 0
  /\ (forall p c, g_E (reset g) p c = 0 /\ g_H (reset g) p c = 0)
  /\ g_detectors (reset g) = g_detectors g /\ g_sources (reset g) = g_sources g
  /\ g_boundaries (reset g) = g_boundaries g.
Proof. exact reset_state. Qed.
Print Assumptions C35_reset.
Theorem C35_reset_reproduces : forall m n g0 g g1 g2,
  no_pml (g_boundaries g0) -> resting g0 -> g_steps g0 = 0%nat ->
  run_steps m g0 = Ok g ->
  run_steps n g0 = Ok g1 -> run_steps n (reset g) = Ok g2 ->
  g_steps g2 = g_steps g1
  /\ forall p c, in_grid (g_N g0) p -> g_E g2 p c = g_E g1 p c /\ g_H g2 p c = g_H g1 p c.
Proof. exact reset_reproduces. Qed.
Print Assumptions C35_reset_reproduces.
Theorem C35_reset_with_pml_refuted : exists g1 g2 g3,
  resting pml_demo /\ g_steps pml_demo = 0%nat
  /\ run_steps 1 pml_demo = Ok g1 /\ run_steps 2 pml_demo = Ok g2
  /\ run_steps 1 (reset g2) = Ok g3
  /\ g_E g3 (1,0,0)%nat AZ <> g_E g1 (1,0,0)%nat AZ.
Proof. exact reset_pml_fails. Qed.
Print Assumptions C35_reset_with_pml_refuted.
Example C35_seconds_case : 0 < g_time_step demo /\ exists g, run_float (7/2 * g_time_step demo) demo = Ok g.
Proof. split; [cbn; lra|]. unfold run_float. apply demo_runs. Qed.
Example C35_case : no_pml (g_boundaries demo_pulsed) /\ resting demo_pulsed /\ g_steps demo_pulsed = 0%nat
  /\ (forall n, exists g, run_steps n demo_pulsed = Ok g).
Proof. split; [repeat constructor|]. split; [intros p c _; split; reflexivity|]. split; [reflexivity|apply pulsed_runs]. Qed.

(** C36 *)
Theorem C36_field_records : forall n g g' i cells Es Hs,
  run_steps n g = Ok g' ->
  nth_error (g_detectors g) i = Some (FieldDetector cells Es Hs) ->
  exists newE newH,
    nth_error (g_detectors g') i = Some (FieldDetector cells (Es ++ newE) (Hs ++ newH))
    /\ length newE = n /\ length newH = n
    /\ (forall k gk, (k < n)%nat -> run_steps (S k) g = Ok gk ->
          exists e h, nth_error newE k = Some e /\ nth_error newH k = Some h
            /\ reads (g_N g) (g_E gk) cells e /\ reads (g_N g) (g_H gk) cells h).
Proof. exact records_run. Qed.
Print Assumptions C36_field_records.
Theorem C36_current_records : forall n,
  forall g g' i cells Is, run_steps n g = Ok g' ->
  nth_error (g_detectors g) i = Some (CurrentDetector cells Is) ->
  exists new,
    nth_error (g_detectors g') i = Some (CurrentDetector cells (Is ++ new)) /\ length new = n
    /\ (forall k gk, (k < n)%nat -> run_steps (S k) g = Ok gk ->
          exists v, nth_error new k = Some v
            /\ map_res (point_current (g_N g) (g_spacing g) (g_H gk)) cells = Ok v).
Proof. exact run_currents. Qed.
Print Assumptions C36_current_records.
Example C36_case : nth_error (g_detectors demo) 0 = Some (FieldDetector [(1,0,0)%Z; (-1,1,0)%Z] [] [])
  /\ (forall n, exists g, run_steps n demo = Ok g)
  /\ resolve3 (g_N demo) (-1,1,0)%Z = Ok (3,1,0)%nat.
Proof. split; [reflexivity|]. split; [apply demo_runs|reflexivity]. Qed.

(** C38 (copying; the registration part is in Props_Register.v) *)
Theorem C38_faces_equal : forall g g' a bs1 bs2,
  g_boundaries g = bs1 ++ Periodic a :: bs2 ->
  no_pml bs2 ->
  (forall F, fold_res (source_update_E (g_N g) (g_steps g)) (g_sources g) F = Ok F) ->
  (forall F, fold_res (source_update_H (g_N g) (g_steps g)) (g_sources g) F = Ok F) ->
  step g = Ok g' ->
  forall p c, in_grid (g_N g) p -> coord a p = 0%nat ->
    g_E g' p c = g_E g' (setc a (g_N g a - 1) p) c
    /\ g_H g' (setc a (g_N g a - 1) p) c = g_H g' p c.
Proof. exact periodic_faces_step. Qed.
Print Assumptions C38_faces_equal.
Example C38_case : g_boundaries demo = [] ++ Periodic AY :: [] /\ (exists g, step demo = Ok g).
Proof.
  split; [reflexivity|]. destruct (demo_runs 1) as [g H]. cbn [run_steps] in H.
  destruct (step demo) as [g'|]; [eauto|discriminate].
Qed.

(** C40 *)
Theorem C40_silence : forall n,
  forall g g', no_pml (g_boundaries g) -> g_sources g = [] -> resting g ->
  run_steps n g = Ok g' -> resting g'.
Proof. exact silent_run. Qed.
Print Assumptions C40_silence.
Theorem C40_pml_adds_constant : forall g g' pm,
  g_boundaries g = [PMLb pm] -> g_sources g = [] ->
  (forall p c, g_E g p c = 0 /\ g_H g p c = 0) ->
  (forall x q c, p_psiE pm x q c = 0) ->
  step g = Ok g' ->
  forall p c, g_E g' p c = if in_pml (g_N g) pm p then g_courant g * g_ie g p c * / 10 ^ 16 else 0.
Proof. exact pml_silence_broken. Qed.
Print Assumptions C40_pml_adds_constant.
Example C40_case : exists g', g_boundaries pml_demo = [PMLb (make_pml AX false 2 default_pml_a (1/2))]
  /\ g_sources pml_demo = [] /\ (forall p c, g_E pml_demo p c = 0 /\ g_H pml_demo p c = 0)
  /\ step pml_demo = Ok g' /\ g_courant pml_demo * 1 * / 10 ^ 16 <> 0.
Proof.
  destruct pml_demo_steps as [g' H]. exists g'. split; [reflexivity|]. split; [reflexivity|].
  split; [intros; split; reflexivity|]. split; [exact H|].
  pose proof bias_pos as B. unfold pml_bias in B. cbn [g_courant pml_demo bare]. lra.
Qed.

(** C61 *)
Theorem C61_when_a_run_raises : forall n g,
  (exists g', run_steps n g = Ok g') <->
  n = 0%nat \/
  (Forall (boundary_ready (g_N g)) (g_boundaries g)
   /\ Forall (detector_ready (g_N g)) (g_detectors g)
   /\ forall k, (k < n)%nat -> Forall (source_ready (g_N g) (g_steps g + k)) (g_sources g)).
Proof. exact run_raises_iff. Qed.
Print Assumptions C61_when_a_run_raises.
Example C61_case : ~ (exists g', run_steps 1 (demo_source 1 [PointSource (1,1,0)%Z 1 (Ricker 10 1)]) = Ok g')
  /\ (exists g', run_steps 3 (demo_source 1 [PointSource (1,1,0)%Z 1 (Continuous 7 0)]) = Ok g').
Proof.
  split.
  - rewrite run_raises_iff. intros [H|(_ & _ & H)]; [discriminate|].
    specialize (H 0%nat (Nat.lt_0_succ 0)). inversion H as [|? ? H1 _]; subst. destruct H1 as [H1 _].
    specialize (H1 eq_refl). cbn in H1. lra.
  - apply run_raises_iff. right. split; [repeat constructor|]. split; [constructor|].
    intros k _. constructor; [|constructor]. cbn. unfold index_ok. cbn. lia.
Qed.
