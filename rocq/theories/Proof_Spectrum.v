(** FDTD simulations run, and spectra are in order. *)
From Coq Require Import Reals ZArith String List Bool Lra Lia Psatz FunctionalExtensionality.
From Verif Require Import Base BaseLemmas PyVal Model_Units Model_EpsGrid Model_Coeffs Model_FDTD Model_Register
  Spec_FDTD Spec_Register Model_Layout Spec_Layout Proof_Register Proof_Register2 Proof_Material Proof_Index Proof_Signal
  Proof_FDTD Proof_Steps Proof_Reset Proof_Layout.
Import ListNotations.
Open Scope R_scope.

(** ** Running *)

Lemma period_pos c wl T : proper c -> UNIT_MAGNITUDE <= wl * f_scaling c ->
  IZR T <= wl / (99 / 100 / sqrt 2 * (UNIT_MAGNITUDE / f_scaling c)) + / 2 < IZR T + 1 -> T <> 0%Z.
Proof.
  intros P Hw [_ H] ->. pose proof UNIT_pos. pose proof (pr_scaling _ P).
  assert (S2 : 1 < sqrt 2) by (rewrite <- sqrt_1; apply sqrt_lt_1; lra).
  assert (1 <= wl / (99 / 100 / sqrt 2 * (UNIT_MAGNITUDE / f_scaling c))); [|lra].
  apply (Rmult_le_reg_r (99 / 100 / sqrt 2 * (UNIT_MAGNITUDE / f_scaling c))).
  { apply Rmult_lt_0_compat; apply Rdiv_lt_0_compat; lra. }
  unfold Rdiv at 4. rewrite Rmult_1_l, Rmult_assoc, Rinv_l, Rmult_1_r.
  2: { apply Rgt_not_eq. apply Rmult_lt_0_compat; apply Rdiv_lt_0_compat; lra. }
  apply Rle_trans with (1 * (UNIT_MAGNITUDE / f_scaling c)).
  - apply Rmult_le_compat_r; [apply Rlt_le, Rdiv_lt_0_compat; lra|].
    apply (Rmult_le_reg_r (sqrt 2)); [lra|]. unfold Rdiv. rewrite Rmult_assoc, Rinv_l by lra. lra.
  - rewrite Rmult_1_l. apply (Rmult_le_reg_r (f_scaling c)); [lra|]. unfold Rdiv. rewrite Rmult_assoc, Rinv_l by lra. lra.
Qed.

Lemma the_source_ready c wl src q g : proper c -> known_kinds c -> usable_source c -> UNIT_MAGNITUDE <= wl * f_scaling c ->
  framed c g -> the_source c wl src ->
  (f_source c = "line"%string -> f_pulse c = "ricker"%string -> forall x p sg, src = LineSource x p sg -> exists a b, sg = Ricker a b) ->
  source_ready (g_N g) q src.
Proof.
  intros P [HP HS] (U1 & U2) Hw (NX & NY & NZ & _) (sg & S1 & S2 & S3) HR.
  pose proof UNIT_pos as UP. pose proof (pr_scaling _ P) as SP.
  assert (W : 0 < wl). { apply (Rmult_lt_reg_r (f_scaling c)); lra. }
  assert (G : forall b, (b = true -> f_pulse c <> "ricker"%string) -> (f_pulse c = "ricker"%string -> exists a b, sg = Ricker a b) ->
     signal_ready b q sg).
  { intros b Hb HRk. destruct HP as [E|[E|E]].
    - destruct (S1 E) as (T & -> & HT). cbn. eapply period_pos; eassumption.
    - rewrite (S2 E). cbn. split; [lra|]. apply Rgt_not_eq. pose proof SPEED_pos.
      apply Rdiv_lt_0_compat; [|lra]. apply Rmult_lt_0_compat.
      + apply Rdiv_lt_0_compat; [lra|]. apply Rdiv_lt_0_compat; lra.
      + apply Rinv_0_lt_compat. repeat apply Rmult_lt_0_compat; lra.
    - destruct (HRk E) as (a & d & ->). cbn. intros ->. destruct (Hb eq_refl E). }
  assert (I0 : index_ok 1 0) by (unfold index_ok; lia).
  destruct S3 as [[E ->]|[E (profile & -> & _)]].
  - destruct U2 as [U2|(_ & U2 & U3)]; [rewrite U2 in E; discriminate|].
    cbn [source_ready]. split; [apply G; [intros _; exact U3|intros; contradiction]|].
    unfold cell_ok. rewrite NX, NY, NZ. auto.
  - cbn [source_ready]. split; [apply G; [discriminate|intros ER; eapply HR; eauto]|].
    destruct profile as [|? [|? [|? ?]]]; cbn [firstn length]; rewrite ?firstn_nil;
      repeat (apply Forall_cons || apply Forall_nil); unfold cell_ok; rewrite NX, NY, NZ;
      repeat split; unfold index_ok in *; lia.
Qed.

(** The signal really is the one asked for, also for ricker. *)
Lemma init_source c (obj : option eps_slice) wl g : proper c -> 1 <= f_scaling c * f_pml c -> known_kinds c -> 0 < wl ->
  (obj = None \/ exists slice row layers, obj = Some slice /\ get slice 0 = Ok row /\ get row 0 = Ok layers) ->
  init_fdtd c obj wl = Ok g ->
  exists src, framed c g /\ g_sources g = [src] /\ the_source c wl src
    /\ (f_pulse c = "ricker"%string -> forall x p sg, src = LineSource x p sg -> exists a b, sg = Ricker a b).
Proof.
  intros P H1 HK Hw HO H. rewrite (init_split c obj wl P H1) in H.
  destruct (source_ok c wl P HK Hw) as (src & HS & E).
  assert (RK : f_pulse c = "ricker"%string -> forall x p sg, src = LineSource x p sg -> exists a b, sg = Ricker a b).
  { intros ER x p sg ES. unfold add_source in E. rewrite ER in E. cbn [signal_of String.eqb Ascii.eqb Bool.eqb] in E.
    destruct HS as (sg' & _ & _ & [[EP ->]|[EL (pr & -> & _)]]); [discriminate|]. rewrite EL in E.
    cbn [String.eqb Ascii.eqb Bool.eqb] in E. rewrite assign_line in E by reflexivity. inversion E. subst. inversion ES. subst.
    unfold source_signal. cbn. eauto. }
  rewrite E in H. cbn [bind] in H. exists src.
  destruct HO as [->|(slice & row & layers & -> & HR & HL)].
  - inversion H; subst. split; [apply framed_frame|]. split; [reflexivity|]. split; assumption.
  - cbv zeta in H. apply bind_ok in H as (t0 & HT & H). rewrite HR in H. cbn [bind] in H. rewrite HL in H. cbn [bind] in H.
    apply get_inv in HT as [HT0 HT]. specialize (HT 0). subst t0.
    assert (B0 : f_pml c + f_free c = layer_begin c 0) by (unfold layer_begin; cbn; lra).
    rewrite B0, <- layer_begin_S in H by exact HT0.
    set (g0 := add_source_ src (named (source_name c) (frame_grid c))) in *.
    assert (F : same_frame g0 g).
    { destruct layers as [|e r]; [cbn in H; inversion H; apply same_frame_refl|].
      assert (LL : (0 + length (e :: r) <= length (f_thick c))%nat).
      { eapply (proj1 (add_layers_ok c (SPEED_OF_LIGHT / wl) P (e :: r) 0 g0 eq_refl eq_refl eq_refl HT0 ltac:(discriminate))). eauto. }
      eapply (add_layers_spec c _ P (e :: r) 0 g0 g eq_refl eq_refl eq_refl LL); [|exact H].
      intros; cbn; field. }
    split; [eapply framed_same; [exact F|apply framed_frame]|].
    destruct F as (_ & _ & _ & _ & _ & _ & _ & _ & FR & _). rewrite FR. split; [reflexivity|]. split; assumption.
Qed.

Lemma simulation_runs c (obj : option eps_slice) wl g n : proper c -> 1 <= f_scaling c * f_pml c -> known_kinds c -> usable_source c ->
  UNIT_MAGNITUDE <= wl * f_scaling c ->
  (obj = None \/ exists slice row layers, obj = Some slice /\ get slice 0 = Ok row /\ get row 0 = Ok layers) ->
  init_fdtd c obj wl = Ok g -> exists g', run_steps n g = Ok g'.
Proof.
  intros P H1 HK HU Hw HO H.
  assert (W : 0 < wl). { pose proof UNIT_pos. pose proof (pr_scaling _ P). apply (Rmult_lt_reg_r (f_scaling c)); lra. }
  destruct (init_source c obj wl g P H1 HK W HO H) as (src & F & ES & HS & RK).
  apply run_raises_iff. right. pose proof F as (NX & NY & NZ & _ & (b1 & b2 & EB & B1 & B2) & ED & _).
  pose proof (positions c P) as (Q1 & Q2 & _ & Q3 & Q4 & Q5 & _). specialize (Q5 H1).
  split; [|split].
  - rewrite EB. destruct B1 as (p1 & -> & A1 & _ & T1), B2 as (p2 & -> & A2 & _ & T2).
    repeat constructor; cbn; rewrite ?A1, ?A2, ?T1, ?T2, NX; lia.
  - rewrite ED. unfold column_cells.
    repeat constructor; cbn; rewrite ?NX, ?NY, ?NZ; unfold index_ok; try lia;
      pose proof (edge_le_end c 0 P); lia.
  - intros k _. rewrite ES. constructor; [|constructor].
    eapply the_source_ready; eauto.
Qed.

Lemma detector_signal_length s : length (detector_signal s) = length s.
Proof. unfold detector_signal, average_along_detector. rewrite !map_length. reflexivity. Qed.

Lemma simulate_ok c (obj : option eps_slice) wl : proper c -> 1 <= f_scaling c * f_pml c -> known_kinds c -> usable_source c ->
  UNIT_MAGNITUDE <= wl * f_scaling c ->
  (obj = None \/ exists slice row layers, obj = Some slice /\ get slice 0 = Ok row /\ get row 0 = Ok layers
     /\ f_thick c <> [] /\ layers <> [] /\ (length layers <= length (f_thick c))%nat) ->
  exists t r, simulate c obj wl = Ok (t, r) /\ length t = Z.to_nat (f_niter c) /\ length r = Z.to_nat (f_niter c).
Proof.
  intros P H1 HK HU Hw HO.
  assert (W : 0 < wl). { pose proof UNIT_pos. pose proof (pr_scaling _ P). apply (Rmult_lt_reg_r (f_scaling c)); lra. }
  assert (exists g, init_fdtd c obj wl = Ok g) as [g HI].
  { destruct HO as [->|(slice & row & layers & -> & HR & HL & HT & HE & LL)].
    - destruct (free_space_layout c wl P H1 HK W) as (g & _ & H & _). eauto.
    - apply (material_layout c slice wl row layers P H1 HK W HT HR HL HE). exact LL. }
  assert (HO' : obj = None \/ exists slice row layers, obj = Some slice /\ get slice 0 = Ok row /\ get row 0 = Ok layers)
    by (destruct HO as [->|(slice & row & layers & -> & HR & HL & _)]; eauto 8).
  unfold simulate. rewrite HI. cbn [bind]. unfold run_int.
  destruct (simulation_runs c obj wl g (Z.to_nat (f_niter c)) P H1 HK HU Hw HO' HI) as [g' HR]. rewrite HR. cbn [bind].
  destruct (init_source c obj wl g P H1 HK W HO' HI) as (src & F & _). destruct F as (_ & _ & _ & _ & _ & ED & _).
  destruct (records_run _ _ _ 0%nat (column_cells (transmission_column c)) [] [] HR ltac:(rewrite ED; reflexivity)) as (e1 & h1 & D1 & L1 & _).
  destruct (records_run _ _ _ 1%nat (column_cells (reflection_column c)) [] [] HR ltac:(rewrite ED; reflexivity)) as (e2 & h2 & D2 & L2 & _).
  unfold get_detector_values. destruct (g_detectors g') as [|d1 [|d2 ds]]; try discriminate.
  cbn in D1, D2. inversion D1; inversion D2; subst. do 2 eexists. split; [reflexivity|].
  rewrite !detector_signal_length, !map_length. auto.
Qed.

(** A point source outside the three rows makes every simulation raise. *)
Lemma point_rows_raise c (obj : option eps_slice) wl : proper c -> 1 <= f_scaling c * f_pml c -> known_kinds c -> 0 < wl ->
  f_source c = "point"%string -> (3 <= Rtrunc (f_src_y c * f_scaling c))%Z -> (0 < f_niter c)%Z ->
  (obj = None \/ exists slice row layers, obj = Some slice /\ get slice 0 = Ok row /\ get row 0 = Ok layers) ->
  forall tr, simulate c obj wl <> Ok tr.
Proof.
  intros P H1 HK W Hp Hy Hn HO tr H. unfold simulate in H. apply bind_ok in H as (g & HI & H).
  apply bind_ok in H as (g' & HR & _).
  destruct (init_source c obj wl g P H1 HK W HO HI) as (src & F & ES & (sg & _ & _ & S3) & _).
  destruct F as (_ & NY & _).
  assert (X : exists g', run_steps (Z.to_nat (f_niter c)) g = Ok g') by eauto.
  apply run_raises_iff in X as [X|(_ & _ & X)]; [lia|]. specialize (X 0%nat ltac:(lia)). rewrite ES in X. inversion X; subst.
  destruct S3 as [[_ ->]|[E _]]; [|congruence]. cbn [source_ready] in *.
  match goal with K : _ /\ cell_ok _ _ |- _ => destruct K as [_ (_ & K & _)]; rewrite NY in K; unfold index_ok in K end. lia.
Qed.
(** A PML thinner than one cell cannot be placed. *)
Lemma thin_pml_raises c (obj : option eps_slice) wl : proper c -> f_scaling c * f_pml c < 1 ->
  forall g, init_fdtd c obj wl <> Ok g.
Proof.
  intros P H1 g H. unfold init_fdtd in H. pose proof P as [Hs Hp Hf Ht Hd Hr].
  assert (E : Rtrunc (f_pml c * f_scaling c) = 0%Z).
  { rewrite Rtrunc_nonneg by nra. apply Rfloor_unique. split; nra. }
  rewrite E in H. apply bind_ok in H as (g1 & H2 & H). apply bind_ok in H as (g2 & H3 & _).
  unfold add_boundaries in H3. apply bind_ok in H3 as (g3 & H3 & _). unfold assign in H3.
  destruct (make_grid_inv _ _ _ _ _ _ H2) as (A & _). clear H2.
  unfold setitem, int_slice, full_slice in H3. cbn [pad_key option_map handle_key handle_distance register] in H3.
  unfold register_pml in H3. cbn [pml_slice bind] in H3. unfold claim_name in H3.
  assert (has_attr g1 "pml_xlow" = false) as HA by (unfold has_attr; rewrite A; reflexivity).
  rewrite HA in H3. cbn in H3. discriminate.
Qed.
