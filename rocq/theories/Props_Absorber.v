(** What absorbing layers and sources add to the fields, exactly. *)
From Coq Require Import Reals ZArith String List Bool Lra Lia.
From Verif Require Import Base BaseLemmas Model_Units Model_FDTD Model_Register Spec_FDTD Spec_Register Spec_Absorber Spec_Emission
  Proof_FDTD Proof_Steps Proof_Cavity Proof_PML Proof_Absorber Proof_Emission Proof_Current Props_FDTD.
Import ListNotations.
Open Scope R_scope.

(** C39: with any number of layers, every step of every run adds to the curl
    exactly the curl of each layer's exponentially fading memory of the field
    differences of all earlier steps - inside the layer; nothing outside it. *)
Theorem C39_convolution : forall g h ls n,
  g_boundaries g = map (fun l => PMLb (make_pml (b_axis l) (b_high l) (b_depth l) (b_stability l) (g_courant g))) ls ->
  (forall k, (k <= S n)%nat -> run_steps k g = Ok (h k)) ->
  exists E1 H1,
    (forall p c, in_grid (g_N g) p ->
       E1 p c = bulk_E (h n) p c + g_courant g * g_ie g p c * Rsum (map (fun l => electric_share h l n p c) ls))
    /\ fold_res (source_update_E (g_N g) (g_steps (h n))) (g_sources g) E1 = Ok (g_E (h (S n)))
    /\ (forall p c, in_grid (g_N g) p ->
       H1 p c = g_H (h n) p c - g_courant g * g_im g p c
          * (curl_E (g_N g) (g_E (h (S n))) p c + Rsum (map (fun l => magnetic_share h l n p c) ls)))
    /\ fold_res (source_update_H (g_N g) (g_steps (h n))) (g_sources g) H1 = Ok (g_H (h (S n))).
Proof. exact absorbers_convolve. Qed.
Print Assumptions C39_convolution.
(** A grid of nine cells with a layer at each end, started with a field, can be
    run for any number of steps. *)
Example C39_two_layers : forall n, exists g h,
  (exists p c, g_E g p c <> 0) /\ g_N g AX = 9%nat
  /\ g_boundaries g = map (fun l => PMLb (make_pml (b_axis l) (b_high l) (b_depth l) (b_stability l) (g_courant g)))
       [mkAbsorber AX false 3 default_pml_a; mkAbsorber AX true 2 default_pml_a]
  /\ forall k, (k <= S n)%nat -> run_steps k g = Ok (h k).
Proof.
  intros n.
  set (g := bare (shape_of 9 1 1) one_field zero_field
              [PMLb (make_pml AX false 3 default_pml_a (1/2)); PMLb (make_pml AX true 2 default_pml_a (1/2))]).
  exists g, (fun k => match run_steps k g with Ok g' => g' | Err _ => g end).
  split; [exists (0,0,0)%nat, AX; cbn; unfold one_field; lra|]. split; [reflexivity|]. split; [reflexivity|].
  intros k _. assert (R : exists g', run_steps k g = Ok g').
  { apply C61_when_a_run_raises. right. split; [|split; [constructor|intros; constructor]].
    constructor; [cbn; lia|]. constructor; [cbn; lia|constructor]. }
  destruct R as [g' R]. rewrite R. reflexivity.
Qed.

(** C43: what a placed source adds at any step, for every waveform. *)
Theorem C43_point_emits : forall nm s g i j k,
  s_signal s <> SRicker -> signal_ok (g_time_step g) s ->
  (forall n, nm = Some n -> ~ In n (g_attrs g)) ->
  (i < g_N g AX)%nat -> (j < g_N g AY)%nat -> (k < g_N g AZ)%nat ->
  exists g' src,
    setitem [KNum (PInt (Z.of_nat i)); KNum (PInt (Z.of_nat j)); KNum (PInt (Z.of_nat k))] (CPoint nm s) g = (g', None)
    /\ g_sources g' = g_sources g ++ [src]
    /\ forall q E, exists E', source_update_E (g_N g) q src E = Ok E'
      /\ E' (i, j, k) AZ = E (i, j, k) AZ
           + s_amplitude s * waveform (g_time_step g) (g_spacing g) (g_courant g) s q
      /\ forall p c, (p, c) <> ((i, j, k), AZ) -> E' p c = E p c.
Proof. exact point_emits. Qed.
Print Assumptions C43_point_emits.
Theorem C43_line_emits : forall nm s g i k,
  signal_ok (g_time_step g) s -> g_spacing g <> 0 ->
  (2 <= g_N g AY)%nat -> (i < g_N g AX)%nat -> (k < g_N g AZ)%nat ->
  (forall n, nm = Some n -> ~ In n (g_attrs g)) ->
  exists g' src,
    setitem [KNum (PInt (Z.of_nat i)); full_slice; KNum (PInt (Z.of_nat k))] (CLine nm s) g = (g', None)
    /\ g_sources g' = g_sources g ++ [src]
    /\ forall q E, exists E', source_update_E (g_N g) q src E = Ok E'
      /\ (forall j, (j < g_N g AY)%nat ->
            E' (i, j, k) AZ = E (i, j, k) AZ
              + s_amplitude s * (bell (g_N g AY) j / Rsum (map (bell (g_N g AY)) (seq 0 (g_N g AY))))
                * waveform (g_time_step g) (g_spacing g) (g_courant g) s q)
      /\ (forall p c, ~ (c = AZ /\ exists j, (j < g_N g AY)%nat /\ p = (i, j, k)) -> E' p c = E p c).
Proof. exact line_emits. Qed.
Print Assumptions C43_line_emits.
Example C43_emitting :
  let s sig := mkSource (PFloat (10 * g_time_step demo_grid)) 1 0 5 None sig in
  signal_ok (g_time_step demo_grid) (s SHanning) /\ signal_ok (g_time_step demo_grid) (s SRicker)
  /\ s_signal (s SHanning) <> SRicker /\ g_spacing demo_grid <> 0
  /\ (2 <= g_N demo_grid AY)%nat /\ (3 < g_N demo_grid AX)%nat /\ (0 < g_N demo_grid AZ)%nat.
Proof.
  pose proof demo_time_pos as T. cbn [signal_ok s_signal s_period s_cycle s_hanning_dt pynum_R].
  repeat split; try discriminate; try (cbn; lia); try lra.
  cbn [demo_grid g_spacing]. apply Rgt_not_eq, Rinv_0_lt_compat, pow_lt. lra.
Qed.

(** C36: the value a current detector records for a cell: the mean of the
    circulations around the cell and around the one below it, plus a second
    half of the first one's y-part. *)
Theorem C36_current_value : forall N dx H i j k,
  in_grid N (i, j, k) ->
  point_current N dx H (Z.of_nat i, Z.of_nat j, Z.of_nat k)
  = Ok ((circulation N dx H (i, j, k) + circulation N dx H (before N AZ (i, j, k))) / 2
        + dx * (H (i, j, k) AY - H (before N AX (i, j, k)) AY) / 2).
Proof. exact current_value. Qed.
Print Assumptions C36_current_value.
Example C36_current_case : in_grid (shape_of 2 3 4) (0, 2, 1)%nat.
Proof. intros [| |]; cbn; lia. Qed.
Theorem C36_current_mean_refuted : exists N dx H p, in_grid N p /\ dx > 0
  /\ point_current N dx H (Z.of_nat (coord AX p), Z.of_nat (coord AY p), Z.of_nat (coord AZ p))
     <> Ok ((circulation N dx H p + circulation N dx H (before N AZ p)) / 2).
Proof. exact current_not_mean. Qed.
Print Assumptions C36_current_mean_refuted.
