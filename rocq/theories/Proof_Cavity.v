(** Consequences for cavities built with the default Courant number, pulsed
    sources, and counterexamples for the FDTD properties. *)
From Coq Require Import Reals ZArith String List Bool Lra Lia Psatz FunctionalExtensionality.
From Verif Require Import Base BaseLemmas Model_Units Model_FDTD Model_Register Spec_FDTD Proof_Torus Proof_FDTD Proof_Energy Proof_Propagate Proof_Steps Proof_Linear Proof_Reset.
Import ListNotations.
Open Scope R_scope.

Lemma default_courant shape sp eps mu g : make_grid shape sp eps mu None = Ok g ->
  Rabs (g_courant g) * sqrt (INR (sim_dim (g_N g))) = 99 / 100 /\ (1 <= sim_dim (g_N g))%nat.
Proof.
  unfold make_grid. destruct shape as [|x [|y [|z [|]]]]; try discriminate. intros H.
  binv H. binv H. binv H. unfold max_courant in Er.
  destruct (Nat.eqb_spec (sim_dim (shape_of (Z.to_nat (handle_distance sp x)) (Z.to_nat (handle_distance sp y))
       (Z.to_nat (handle_distance sp z)))) 0) as [|Hd]; [discriminate|].
  inversion Er; subst r. inversion Er0; subst r0. inversion H; subst g. cbn [g_courant g_N].
  assert (1 <= sim_dim (shape_of (Z.to_nat (handle_distance sp x)) (Z.to_nat (handle_distance sp y))
       (Z.to_nat (handle_distance sp z))))%nat as Hge by lia.
  split; [|exact Hge].
  set (D := sim_dim _) in *. assert (0 < sqrt (INR D)).
  { apply sqrt_lt_R0. apply lt_0_INR. lia. }
  rewrite Rabs_right.
  - field. lra.
  - apply Rle_ge. apply Rmult_le_pos; [lra|]. left. apply Rinv_0_lt_compat. assumption.
Qed.

(** Every accepted Courant number is at most the stability limit. *)
Lemma accepted_courant shape sp eps mu c g : make_grid shape sp eps mu (Some c) = Ok g ->
  g_courant g = c /\ c * sqrt (INR (sim_dim (g_N g))) <= 1.
Proof.
  unfold make_grid. destruct shape as [|x [|y [|z [|]]]]; try discriminate. intros H.
  binv H. binv H. binv H. unfold max_courant in Er.
  destruct (Nat.eqb_spec (sim_dim (shape_of (Z.to_nat (handle_distance sp x)) (Z.to_nat (handle_distance sp y))
       (Z.to_nat (handle_distance sp z)))) 0) as [|Hd]; [discriminate|].
  inversion Er; subst r. inversion H; subst g. cbn [g_courant g_N].
  set (D := sim_dim _) in *. assert (0 < sqrt (INR D)).
  { apply sqrt_lt_R0. apply lt_0_INR. lia. }
  destruct (Rltb (/ sqrt (INR D)) c) eqn:Ec; [discriminate|]. inversion Er0; subst r0.
  split; [reflexivity|]. apply Rltb_false in Ec.
  apply (Rmult_le_compat_r (sqrt (INR D))) in Ec; [|lra]. rewrite Rinv_l in Ec by lra. lra.
Qed.

Lemma negative_courant shape sp eps mu c g0 : make_grid shape sp eps mu None = Ok g0 -> c <= 0 ->
  exists g, make_grid shape sp eps mu (Some c) = Ok g /\ g_courant g = c.
Proof.
  unfold make_grid. destruct shape as [|x [|y [|z [|]]]]; try discriminate. intros H Hc.
  binv H. binv H. binv H. cbn [bind]. unfold max_courant in Er.
  destruct (Nat.eqb_spec (sim_dim (shape_of (Z.to_nat (handle_distance sp x)) (Z.to_nat (handle_distance sp y))
       (Z.to_nat (handle_distance sp z)))) 0) as [|Hd]; [discriminate|].
  inversion Er; subst r. set (D := sim_dim _) in *.
  assert (0 < / sqrt (INR D)). { apply Rinv_0_lt_compat, sqrt_lt_R0, lt_0_INR. lia. }
  destruct (Rltb (/ sqrt (INR D)) c) eqn:Ec.
  { exfalso. apply Rltb_true in Ec. lra. }
  assert (Em : max_courant D = Ok (/ sqrt (INR D))).
  { unfold max_courant. destruct (Nat.eqb_spec D 0); [contradiction|reflexivity]. }
  rewrite Em. cbn [bind]. rewrite Ec. cbn [bind]. rewrite Er1. cbn [bind].
  eexists. split; [reflexivity|reflexivity].
Qed.

Lemma bounded_pointwise m n g g' : 0 < m -> passive m g ->
  no_pml (g_boundaries g) -> quiet_from (g_steps g) g -> closed_grid g ->
  Rabs (g_courant g) * sqrt (INR (sim_dim (g_N g))) = 99 / 100 ->
  run_steps n g = Ok g' ->
  forall p c, in_grid (g_N g) p ->
    g_E g' p c ^ 2 <= (100 / m + 99) * total_square g
    /\ g_H g' p c ^ 2 <= (100 / m + 99) * total_square g.
Proof.
  intros Hm Hp Hb Hq Hc Hk H p c Hin.
  destruct (closed_run n g g' Hb Hq Hc H) as (C' & _ & _).
  pose proof (bounded_run m n g g' Hm Hp Hb Hq Hc ltac:(lra) H) as B. rewrite Hk in B.
  destruct (run_steps_static n g g' H) as [St _]. static St.
  assert (Hin' : in_grid (g_N g') p) by (rewrite SN; exact Hin).
  destruct (total_square_cell g' p c C' Hin') as [T1 T2].
  replace ((/ m + 99 / 100) / (1 - 99 / 100)) with (100 / m + 99) in B by (field; lra). lra.
Qed.

(** * Pulses *)


Lemma add_zero (F : field) p c : add_at F p c 0 = F.
Proof.
  extensionality q. extensionality d. unfold add_at.
  destruct (pos_eqb p q && axis_eqb c d); [ring|reflexivity].
Qed.

Lemma Reqb_neq x y : x <> y -> Reqb x y = false.
Proof. intros H. unfold Reqb. destruct (Req_EM_T x y); congruence. Qed.

Lemma pulses_quiet q0 g : Forall (pulse_over (g_N g) q0) (g_sources g) -> quiet_from q0 g.
Proof.
  intros HP q F Hq.
  assert (K : forall s F, In s (g_sources g) -> source_update_E (g_N g) q s F = Ok F /\ source_update_H (g_N g) q s F = Ok F).
  { intros s F0 Hin. rewrite Forall_forall in HP. specialize (HP s Hin).
    destruct s as [cell amp [|f dt cy|]|cells prof [|f dt cy|]| |]; cbn [pulse_over] in HP; try contradiction;
      destruct HP as (Hr & Hc & Hf & He); cbn [source_update_E source_update_H].
    - split; [|reflexivity]. unfold point_value. rewrite !Reqb_neq by assumption. cbn [orb].
      destruct (Z.ltb_spec (Z.of_nat q) (hanning_end f dt cy)); [lia|]. cbn [bind].
      destruct Hr as [p ->]. cbn [bind]. rewrite add_zero. reflexivity.
    - split; [|reflexivity]. unfold line_factor. rewrite !Reqb_neq by assumption. cbn [orb].
      destruct (Z.ltb_spec (Z.of_nat q) (hanning_end f dt cy)); [lia|]. cbn [bind].
      clear -Hr. revert prof. induction cells as [|c cells IH]; intros [|v prof]; cbn [combine fold_res fst snd]; try reflexivity.
      destruct (Hr c (or_introl eq_refl)) as [p Ep]. rewrite Ep. cbn [bind].
      rewrite Rmult_0_r, add_zero. apply IH. intros cell Hin. apply Hr. right; exact Hin. }
  clear HP Hq. induction (g_sources g) as [|s ss IH]; cbn [fold_res]; [split; reflexivity|].
  destruct (K s F (or_introl eq_refl)) as [-> ->]. cbn [bind]. apply IH. intros; apply K. right; assumption.
Qed.

(** From rest, driven by interior pulses: once the pulses are over the fields
    are bounded by what they were then, for ever. *)
Lemma pulsed_cavity_bounded m T n g0 gT g : 0 < m -> passive m g0 ->
  resting g0 -> no_pml (g_boundaries g0) ->
  Forall (interior_source (g_N g0)) (g_sources g0) ->
  Forall (pulse_over (g_N g0) (g_steps g0 + T)) (g_sources g0) ->
  Rabs (g_courant g0) * sqrt (INR (sim_dim (g_N g0))) = 99 / 100 ->
  run_steps T g0 = Ok gT -> run_steps n gT = Ok g ->
  forall p c, in_grid (g_N g0) p ->
    g_E g p c ^ 2 <= (100 / m + 99) * total_square gT
    /\ g_H g p c ^ 2 <= (100 / m + 99) * total_square gT.
Proof.
  intros Hm Hp Hr Hb Hi Ho Hk HT Hn p c Hin.
  destruct (closed_driven_run T g0 gT Hb Hi (resting_closed g0 Hr) HT) as [Cl Bd].
  destruct (run_steps_static T g0 gT HT) as [St Ht].
  pose proof (passive_static m g0 gT St Hp) as HpT. static St.
  assert (St' : g_steps gT = (g_steps g0 + T)%nat) by (apply (run_count T g0 gT HT)).
  apply (bounded_pointwise m n gT g Hm HpT); try assumption.
  - rewrite Bd; exact Hb.
  - apply pulses_quiet. rewrite SN, Ssr, St'. exact Ho.
  - rewrite SN, Sco; exact Hk.
  - rewrite SN; exact Hin.
Qed.

(** * Counterexamples *)

Definition one_field : field := fun _ _ => 1.
Definition bare (N : shape3) (E H : field) (bs : list boundary) : grid :=
  mkGrid N 1 (1/2) 1 E H zero_field one_field one_field 0 [] bs [] 0 [].

(** Energy is not conserved when the initial field is non-zero on a wall. *)
Definition wall_E : field := fun p c => match p, c with (0%nat, _, _), AZ => 1 | _, _ => 0 end.
Lemma plain_step g : g_boundaries g = [] -> g_sources g = [] -> g_detectors g = [] ->
  exists g', step g = Ok g' /\ same_static g g' /\ g_boundaries g' = [] /\ g_detectors g' = []
    /\ g_E g' = bulk_E g
    /\ g_H g' = (fun p c => g_H g p c - g_courant g * g_im g p c * curl_E (g_N g) (g_E g') p c).
Proof.
  intros Hb Hs Hd. destruct (step g) as [g'|e] eqn:E.
  - exists g'. split; [reflexivity|]. split; [apply step_static in E; apply E|].
    apply step_inv in E as (g1 & g2 & HE & HH & ->).
    apply update_E_inv in HE as (bs & E3 & ds & Hbs1 & HsE & HdE & ->).
    apply update_H_inv in HH as (bs' & H3 & ds' & Hbs2 & HsH & HdH & ->).
    cbn [g_boundaries g_sources g_detectors with_fields g_N g_E g_H g_courant g_ie g_im g_steps g_spacing] in *.
    rewrite Hb in Hbs1. rewrite Hs in HsE, HsH. rewrite Hd in HdE.
    cbn [map_res fold_res] in *. inversion Hbs1; subst bs. inversion HdE; subst ds.
    cbn [map_res] in Hbs2, HdH. inversion Hbs2; subst bs'. inversion HdH; subst ds'.
    cbn [fold_left] in HsE, HsH. inversion HsE; subst E3. inversion HsH; subst H3. repeat split.
  - exfalso. pose proof (step_ok g) as K. rewrite E in K. unfold step_ready in K.
    rewrite Hb, Hs, Hd in K. discriminate.
Qed.

Lemma energy_needs_walls : exists g g1 g2,
  g_boundaries g = [] /\ g_sources g = [] /\ grid_material_ok g
  /\ (forall p c, g_abs g p c = 0) /\ Rabs (g_courant g) * sqrt (INR (sim_dim (g_N g))) = / 2
  /\ step g = Ok g1 /\ step g1 = Ok g2
  /\ energy_between g g1 = 1 /\ energy_between g1 g2 = 3 / 2.
Proof.
  set (g := bare (shape_of 2 1 1) wall_E zero_field []).
  destruct (plain_step g) as (g1 & S1 & St1 & B1 & D1 & E1 & H1); try reflexivity.
  destruct St1 as (SN1 & Ssp1 & Sco1 & Sts1 & Sab1 & Sie1 & Sim1 & Ssr1 & Sob1 & Sat1).
  destruct (plain_step g1) as (g2 & S2 & St2 & B2 & D2 & E2 & H2); try assumption.
  destruct St2 as (SN2 & Ssp2 & Sco2 & Sts2 & Sab2 & Sie2 & Sim2 & Ssr2 & Sob2 & Sat2).
  exists g, g1, g2.
  split; [reflexivity|]. split; [reflexivity|].
  split; [intros p c _; cbn; unfold zero_field, one_field; lra|].
  split; [intros; reflexivity|].
  split; [cbn; rewrite sqrt_1, Rabs_right; lra|].
  split; [exact S1|]. split; [exact S2|].
  set (p0 := (0,0,0)%nat : pos). set (p1 := (1,0,0)%nat : pos).
  assert (E1v : forall c, g_E g1 p0 c = wall_E p0 c /\ g_E g1 p1 c = wall_E p1 c).
  { intros c. rewrite E1. unfold bulk_E, p0, p1.
    destruct c; cbn; unfold dbwd; cbn; unfold zero_field, one_field; split; field. }
  assert (H1v : forall c, g_H g1 p0 c = match c with AY => - (1 / 2) | _ => 0 end /\ g_H g1 p1 c = 0).
  { intros c. rewrite H1. unfold p0, p1 in *.
    pose proof (E1v AX) as X. pose proof (E1v AY) as Y. pose proof (E1v AZ) as Z. cbn in X, Y, Z.
    destruct X as [X0 X1], Y as [Y0 Y1], Z as [Z0 Z1].
    destruct c; cbn -[g_E]; unfold dfwd; cbn -[g_E]; unfold p0, p1 in *; rewrite ?X0, ?X1, ?Y0, ?Y1, ?Z0, ?Z1;
      unfold zero_field, one_field; split; field. }
  assert (E2v : forall c, g_E g2 p0 c = wall_E p0 c /\ g_E g2 p1 c = match c with AZ => 1 / 4 | _ => 0 end).
  { intros c. rewrite E2. unfold bulk_E. rewrite Sab1, Sco1, Sie1. unfold p0, p1 in *.
    pose proof (H1v AX) as X. pose proof (H1v AY) as Y. pose proof (H1v AZ) as Z.
    destruct X as [X0 X1], Y as [Y0 Y1], Z as [Z0 Z1].
    destruct (E1v c) as [-> ->].
    destruct c; cbn -[g_H]; unfold dbwd; cbn -[g_H]; rewrite ?X0, ?X1, ?Y0, ?Y1, ?Z0, ?Z1;
      unfold zero_field, one_field; split; field. }
  assert (H2v : forall c, g_H g2 p0 c = match c with AY => - (7 / 8) | _ => 0 end /\ g_H g2 p1 c = 0).
  { intros c. rewrite H2. rewrite Sco1, Sim1, SN1. unfold p0, p1 in *.
    pose proof (E2v AX) as X. pose proof (E2v AY) as Y. pose proof (E2v AZ) as Z. cbn in X, Y, Z.
    destruct X as [X0 X1], Y as [Y0 Y1], Z as [Z0 Z1].
    destruct (H1v c) as [-> ->].
    destruct c; cbn -[g_E]; unfold dfwd; cbn -[g_E]; unfold p0, p1 in *; rewrite ?X0, ?X1, ?Y0, ?Y1, ?Z0, ?Z1;
      unfold zero_field, one_field; split; field. }
  unfold energy_between. rewrite B1, SN1, Sie1, Sim1.
  unfold box_sum, cells, sum3. cbn [g bare g_boundaries g_N g_ie g_im g_H].
  cbn [periodic_on existsb andb E_lo E_hi H_lo H_hi shape_of Nat.sub seq list_prod app map Rsum fold_right].
  change (H_lo AX) with 0%nat; change (H_lo AY) with 0%nat; change (H_lo AZ) with 0%nat. fold p0 p1.
  rewrite ?(proj1 (E1v AX)), ?(proj2 (E1v AX)), ?(proj1 (E1v AY)), ?(proj2 (E1v AY)), ?(proj1 (E1v AZ)), ?(proj2 (E1v AZ)).
  rewrite ?(proj1 (E2v AX)), ?(proj2 (E2v AX)), ?(proj1 (E2v AY)), ?(proj2 (E2v AY)), ?(proj1 (E2v AZ)), ?(proj2 (E2v AZ)).
  rewrite ?(proj1 (H1v AX)), ?(proj2 (H1v AX)), ?(proj1 (H1v AY)), ?(proj2 (H1v AY)), ?(proj1 (H1v AZ)), ?(proj2 (H1v AZ)).
  rewrite ?(proj1 (H2v AX)), ?(proj2 (H2v AX)), ?(proj1 (H2v AY)), ?(proj2 (H2v AY)), ?(proj1 (H2v AZ)), ?(proj2 (H2v AZ)).
  cbn. unfold one_field, zero_field. split; field.
Qed.

(** A grid of three cells whose first two are a PML, at rest. *)
Definition pml_demo : grid :=
  bare (shape_of 3 1 1) zero_field zero_field [PMLb (make_pml AX false 2 default_pml_a (1/2))].

Lemma bias_pos : 0 < pml_bias.
Proof. unfold pml_bias. apply Rinv_0_lt_compat. apply pow_lt. lra. Qed.

Lemma pml_demo_steps : exists g1, step pml_demo = Ok g1.
Proof. eexists. reflexivity. Qed.

(** With a PML superposition fails: combining a silent simulation with itself
    does not double the fields. *)
Lemma superposition_pml_fails : exists g1, superposition 1 1 pml_demo pml_demo pml_demo
  /\ step pml_demo = Ok g1 /\ ~ superposed (g_N g1) 1 1 (g_E g1) (g_E g1) (g_E g1).
Proof.
  destruct pml_demo_steps as [g1 H1]. exists g1. split; [|split; [exact H1|]].
  - unfold superposition. do 7 (split; [solve [repeat split; reflexivity | reflexivity | constructor]|]).
    split; [constructor; [|constructor]|].
    + cbn. repeat (split; [repeat split; reflexivity|]). intros x q c _. unfold zero_field. split; ring.
    + split; intros p c _; cbn; unfold zero_field; ring.
  - intros K. destruct (step_static _ _ H1) as [St _]. static St. rewrite SN in K.
    assert (Hg : in_grid (g_N pml_demo) (0,0,0)%nat) by (intros [| |]; cbn; lia).
    specialize (K (0,0,0)%nat AX Hg).
    rewrite (pml_silence_broken pml_demo g1 (make_pml AX false 2 default_pml_a (1/2))) in K;
      try reflexivity; try exact H1; [|intros; split; reflexivity].
    pose proof bias_pos as B. unfold pml_bias in B.
    replace (in_pml (g_N pml_demo) (make_pml AX false 2 default_pml_a (1/2)) (0,0,0)%nat) with true in K by reflexivity.
    cbn [g_courant g_ie pml_demo bare] in K. unfold one_field in K. lra.
Qed.

(** With a PML a reset grid does not reproduce the fresh run. *)
Lemma pml_c_neg a co s : 0 < a -> 0 < co -> 0 < s -> -1 < pml_c a co s < 0.
Proof.
  intros Ha Hc Hs. unfold pml_c, pml_b.
  assert (E1 : exp (- (s / 1 + a) * co) < 1).
  { apply Rlt_le_trans with (exp 0); [|rewrite exp_0; lra]. apply exp_increasing. unfold Rdiv. rewrite Rinv_1. nra. }
  pose proof (exp_pos (- (s / 1 + a) * co)) as E0.
  set (b := exp _) in *. replace (s * 1 + a * 1 ^ 2) with (s + a) by ring.
  split.
  - apply Rmult_lt_reg_r with (s + a); [lra|]. unfold Rdiv. rewrite Rmult_assoc, Rinv_l by lra. nra.
  - apply Rmult_lt_reg_r with (s + a); [lra|]. unfold Rdiv. rewrite Rmult_assoc, Rinv_l by lra. nra.
Qed.

Lemma one_pml_step g pm : g_boundaries g = [PMLb pm] -> g_sources g = [] -> g_detectors g = [] ->
  (p_thick pm <= g_N g (p_axis pm))%nat ->
  exists g', step g = Ok g' /\ same_static g g' /\ g_detectors g' = []
    /\ g_boundaries g' = [PMLb (pml_phi_H (g_N g) (g_E g') (pml_phi_E (g_N g) (g_H g) pm))]
    /\ g_E g' = boundary_update_E (g_N g) (g_courant g) (g_ie g) (PMLb (pml_phi_E (g_N g) (g_H g) pm)) (bulk_E g)
    /\ g_H g' = boundary_update_H (g_N g) (g_courant g) (g_im g)
           (PMLb (pml_phi_H (g_N g) (g_E g') (pml_phi_E (g_N g) (g_H g) pm)))
           (fun p c => g_H g p c - g_courant g * g_im g p c * curl_E (g_N g) (g_E g') p c).
Proof.
  intros Hb Hs Hd Ht. destruct (step g) as [g'|e] eqn:E.
  - exists g'. split; [reflexivity|]. split; [apply step_static in E; apply E|].
    apply step_inv in E as (g1 & g2 & HE & HH & ->).
    apply update_E_inv in HE as (bs & E3 & ds & Hbs1 & HsE & HdE & ->).
    apply update_H_inv in HH as (bs' & H3 & ds' & Hbs2 & HsH & HdH & ->).
    cbn [g_boundaries g_sources g_detectors with_fields g_N g_E g_H g_courant g_ie g_im g_steps g_spacing] in *.
    rewrite Hb in Hbs1. rewrite Hs in HsE, HsH. rewrite Hd in HdE.
    cbn [map_res boundary_phi_E bind fold_res] in *.
    destruct (Nat.leb_spec (p_thick pm) (g_N g (p_axis pm))); [|lia].
    cbn [bind] in Hbs1. inversion Hbs1; subst bs. inversion HdE; subst ds.
    cbn [map_res boundary_phi_H bind p_thick p_axis pml_phi_E] in Hbs2, HdH.
    destruct (Nat.leb_spec (p_thick pm) (g_N g (p_axis pm))); [|lia].
    cbn [bind] in Hbs2. inversion Hbs2; subst bs'. inversion HdH; subst ds'.
    cbn [fold_left] in HsE, HsH. inversion HsE; subst E3. inversion HsH; subst H3. repeat split.
  - exfalso. pose proof (step_ok g) as K. rewrite E in K. unfold step_ready in K.
    rewrite Hb, Hs, Hd in K. cbn [forallb boundary_ok] in K.
    destruct (Nat.leb_spec (p_thick pm) (g_N g (p_axis pm))); [|lia]. discriminate.
Qed.

Lemma reset_pml_fails : exists g1 g2 g3,
  resting pml_demo /\ g_steps pml_demo = 0%nat
  /\ run_steps 1 pml_demo = Ok g1 /\ run_steps 2 pml_demo = Ok g2
  /\ run_steps 1 (reset g2) = Ok g3
  /\ g_E g3 (1,0,0)%nat AZ <> g_E g1 (1,0,0)%nat AZ.
Proof.
  set (pm := make_pml AX false 2 default_pml_a (1/2)).
  destruct (one_pml_step pml_demo pm) as (g1 & S1 & St1 & D1 & B1 & E1 & H1); try reflexivity; [cbn; lia|].
  pose proof (pml_silence_broken pml_demo g1 pm eq_refl eq_refl (fun p c => conj eq_refl eq_refl) (fun x q c => eq_refl) S1) as V1.
  destruct St1 as (SN1 & Ssp1 & Sco1 & Sts1 & Sab1 & Sie1 & Sim1 & Ssr1 & Sob1 & Sat1).
  destruct (one_pml_step g1 _ B1) as (g2 & S2 & St2 & D2 & B2 & E2 & H2);
    [rewrite Ssr1; reflexivity|exact D1|rewrite SN1; cbn; lia|].
  destruct St2 as (SN2 & Ssp2 & Sco2 & Sts2 & Sab2 & Sie2 & Sim2 & Ssr2 & Sob2 & Sat2).
  destruct (one_pml_step (reset g2) _ B2) as (g3 & S3 & St3 & D3 & B3 & E3 & H3);
    [cbn; rewrite Ssr2, Ssr1; reflexivity|exact D2|cbn; rewrite SN2, SN1; cbn; lia|].
  exists g1, g2, g3.
  split; [intros p c _; split; reflexivity|]. split; [reflexivity|].
  split; [cbn [run_steps]; rewrite S1; reflexivity|].
  split; [cbn [run_steps]; rewrite S1; cbn [bind]; rewrite S2; reflexivity|].
  split; [cbn [run_steps]; rewrite S3; reflexivity|].
  set (cc := pml_c default_pml_a (1/2) (sigmaE_at false 2 1)).
  set (bb := pml_b default_pml_a (1/2) (sigmaE_at false 2 1)).
  assert (Hs : 0 < sigmaE_at false 2 1).
  { unfold sigmaE_at, pml_sigma. cbn. lra. }
  assert (Hc : cc < 0).
  { apply pml_c_neg; [|lra|exact Hs]. unfold default_pml_a. apply Rinv_0_lt_compat, pow_lt. lra. }
  assert (Hb : 0 < bb) by apply exp_pos.
  pose proof bias_pos as Hbias.
  set (k := 1 / 2 * pml_bias).
  assert (E1a : g_E g1 (0,0,0)%nat AZ = k).
  { rewrite V1. change (in_pml (g_N pml_demo) pm (0,0,0)%nat) with true.
    cbn [g_courant g_ie pml_demo bare]. unfold one_field, k, pml_bias. ring. }
  assert (E1b : g_E g1 (1,0,0)%nat AZ = k).
  { rewrite V1. change (in_pml (g_N pml_demo) pm (1,0,0)%nat) with true.
    cbn [g_courant g_ie pml_demo bare]. unfold one_field, k, pml_bias. ring. }
  assert (E1c : g_E g1 (2,0,0)%nat AZ = 0).
  { rewrite V1. change (in_pml (g_N pml_demo) pm (2,0,0)%nat) with false. reflexivity. }
  assert (H1a : g_H g1 (0,0,0)%nat AY = 0).
  { rewrite H1. unfold boundary_update_H.
    change (in_pml (g_N pml_demo) _ (0,0,0)%nat) with true. cbv iota.
    cbn [pml_demo bare g_N g_courant g_im g_H curl_E p_phiH pml_phi_H].
    unfold dfwd; cbn -[g_E]; unfold dfwd; cbn -[g_E]. rewrite ?E1a, ?E1b. unfold zero_field, one_field. ring. }
  assert (H1b : g_H g1 (1,0,0)%nat AY = - (1 / 2) * k).
  { rewrite H1. unfold boundary_update_H.
    change (in_pml (g_N pml_demo) _ (1,0,0)%nat) with true. cbv iota.
    cbn [pml_demo bare g_N g_courant g_im g_H curl_E p_phiH pml_phi_H].
    unfold dfwd; cbn -[g_E]; unfold dfwd; cbn -[g_E]. rewrite ?E1a, ?E1b, ?E1c. unfold zero_field, one_field. ring. }
  assert (Z0 : forall x d, dbwd (fun q c => g_H (reset g2) (pml_cell (g_N (reset g2)) (pml_phi_H (g_N g1) (g_E g2)
       (pml_phi_E (g_N g1) (g_H g1) (pml_phi_H (g_N pml_demo) (g_E g1) (pml_phi_E (g_N pml_demo) (g_H pml_demo) pm)))) q) c) x d (1,0,0)%nat = 0).
  { intros x d. apply dbwd_zero_field. intros p. cbn. ring. }
  assert (BE : bulk_E (reset g2) (1,0,0)%nat AZ = 0).
  { unfold bulk_E. cbn [reset with_fields g_E g_H g_abs g_ie g_courant].
    assert (curl_H (fun p c => g_H g2 p c * 0) (1,0,0)%nat AZ = 0) as ->.
    { cbn [curl_H]. rewrite !dbwd_zero_field; try ring; intros; ring. }
    unfold Rdiv. ring. }
  rewrite E1b, E3. unfold boundary_update_E.
  assert (IN : in_pml (g_N (reset g2)) (pml_phi_E (g_N (reset g2)) (g_H (reset g2))
     (pml_phi_H (g_N g1) (g_E g2) (pml_phi_E (g_N g1) (g_H g1) (pml_phi_H (g_N pml_demo) (g_E g1)
     (pml_phi_E (g_N pml_demo) (g_H pml_demo) pm))))) (1,0,0)%nat = true).
  { cbn [reset with_fields g_N]. rewrite SN2, SN1. reflexivity. }
  rewrite IN, BE.
  assert (LO : pml_local (g_N (reset g2)) (pml_phi_E (g_N (reset g2)) (g_H (reset g2))
     (pml_phi_H (g_N g1) (g_E g2) (pml_phi_E (g_N g1) (g_H g1) (pml_phi_H (g_N pml_demo) (g_E g1)
     (pml_phi_E (g_N pml_demo) (g_H pml_demo) pm))))) (1,0,0)%nat = (1,0,0)%nat).
  { cbn [reset with_fields g_N]. rewrite SN2, SN1. reflexivity. }
  rewrite LO.
  assert (CO : g_courant (reset g2) * g_ie (reset g2) (1,0,0)%nat AZ = 1 / 2).
  { cbn [reset with_fields g_courant g_ie]. rewrite Sco2, Sco1, Sie2, Sie1.
    cbn [pml_demo bare g_courant g_ie]. unfold one_field. ring. }
  rewrite CO.
  assert (PSI : p_phiE (pml_phi_E (g_N (reset g2)) (g_H (reset g2))
     (pml_phi_H (g_N g1) (g_E g2) (pml_phi_E (g_N g1) (g_H g1) (pml_phi_H (g_N pml_demo) (g_E g1)
     (pml_phi_E (g_N pml_demo) (g_H pml_demo) pm))))) (1,0,0)%nat AZ = - (1 / 2) * k * cc * bb).
  { cbn [p_phiE pml_phi_E pml_phi_H p_psiE p_bE p_cE]. cbn [p_phiE pml_phi_E pml_phi_H p_psiE p_bE p_cE] in Z0. 
    cbn [p_phiE pml_phi_E pml_phi_H p_psiE p_bE p_cE]. 
    change (p_bE pm (1,0,0)%nat AX) with bb. change (p_cE pm (1,0,0)%nat AX) with cc.
    assert (Y1 : forall F, dbwd F AY AX (1,0,0)%nat = 0) by reflexivity. rewrite !Y1.
    assert (Y2 : forall G, dbwd (fun q c => g_H (reset g2) (G q) c) AX AY (1,0,0)%nat = 0).
    { intros G. apply dbwd_zero_field. intros p. cbn. ring. }
    rewrite Y2.
    assert (Y3 : forall G, dbwd (fun q c => g_H pml_demo (G q) c) AX AY (1,0,0)%nat = 0).
    { intros G. apply dbwd_zero_field. intros p. reflexivity. }
    rewrite Y3.
    unfold dbwd. cbn [coord Nat.leb setc Nat.sub]. rewrite SN1.
    change (pml_cell (g_N pml_demo) _ (1,0,0)%nat) with (1,0,0)%nat.
    change (pml_cell (g_N pml_demo) _ (0,0,0)%nat) with (0,0,0)%nat.
    rewrite H1a, H1b. change (p_psiE pm AZ (1,0,0)%nat AX) with 0. change (p_psiE pm AZ (1,0,0)%nat AY) with 0. ring. }
  rewrite PSI. assert (0 < k) by (unfold k; lra).
  assert (0 < - (1 / 2) * k * cc * bb).
  { replace (- (1 / 2) * k * cc * bb) with ((1 / 2) * (k * (- cc) * bb)) by ring.
    apply Rmult_lt_0_compat; [lra|]. apply Rmult_lt_0_compat; [|exact Hb]. apply Rmult_lt_0_compat; lra. }
  unfold k at 2. lra.
Qed.
