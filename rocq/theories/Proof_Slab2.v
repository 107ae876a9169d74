From Coq Require Import Reals ZArith String List Bool Lra Lia Psatz.
From Verif Require Import Base BaseLemmas Cplx CplxLemmas PyVal Spec_Config Model_Units Model_Coeffs Model_FDTD Model_Register Spec_FDTD Spec_Register Model_Layout Spec_Layout Model_TMM Spec_TMM
  Proof_Steps Proof_Layout Proof_Spectrum Spec_Harmonic Proof_Harmonic2 Proof_Harmonic3 Proof_Harmonic5 Proof_Harmonic6 Proof_Harmonic7 Spec_Slab Proof_Slab.
Import ListNotations.
Open Scope R_scope.

(** ** The index and the thickness are those of the material, nearly *)
Lemma x_cos_sin x : 0 < x -> x <= PI -> x * cos x <= sin x.
Proof.
  intros H H'. destruct (MVT_cor2 (fun y => sin y - y * cos y) (fun y => y * sin y) 0 x H) as (y & E & Hy).
  - intros y _. replace (y * sin y) with (cos y - (1 * cos y + y * - sin y)) by ring.
    apply derivable_pt_lim_minus; [apply derivable_pt_lim_sin|]. apply derivable_pt_lim_mult; [apply derivable_pt_lim_id|apply derivable_pt_lim_cos].
  - rewrite sin_0, Rmult_0_l in E. assert (0 <= sin y) by (apply sin_ge_0; lra). assert (0 <= y * sin y * (x - 0)) by (repeat apply Rmult_le_pos; lra). lra.
Qed.
Lemma sin_le x : 0 < x -> sin x <= x.
Proof. intros H. left. apply sin_lt_x, H. Qed.

Lemma div_le p q d : 0 < d -> p <= q * d -> p / d <= q.
Proof. intros D H. apply Rmult_le_reg_r with d; [exact D|]. unfold Rdiv. rewrite Rmult_assoc, Rinv_l by lra. lra. Qed.
Lemma le_div p q d : 0 < d -> q * d <= p -> q <= p / d.
Proof. intros D H. apply Rmult_le_reg_r with d; [exact D|]. unfold Rdiv. rewrite Rmult_assoc, Rinv_l by lra. lra. Qed.

Lemma index_close k e : 0 < k < PI -> 1 <= e -> sqrt e * sin (k / 2) < 1 ->
  sqrt e <= grid_index k e <= sqrt e / cos (grid_phase k e / 2).
Proof.
  intros K E H. destruct (grid_phase_spec k e K ltac:(lra) H) as (P & SE & SP & CP). destruct (half_pos k K) as (S & C & T).
  assert (Q : 1 <= sqrt e) by (rewrite <- sqrt_1; apply sqrt_le_1; lra). pose proof (COS_bound (k / 2)) as [_ C1'].
  assert (G : grid_index k e = sqrt e * cos (k / 2) / cos (grid_phase k e / 2)) by (unfold grid_index, tan; rewrite SE; field; repeat split; lra).
  rewrite G. set (c := cos (grid_phase k e / 2)) in *. set (d := cos (k / 2)) in *.
  assert (CD : c <= d).
  { apply Rsqr_incr_0_var; [|lra]. pose proof (sin2_cos2 (k / 2)) as I1. pose proof (sin2_cos2 (grid_phase k e / 2)) as I2. fold c in I2. fold d in I1. rewrite SE in I2.
    assert (I3 : Rsqr (sin (k / 2)) <= Rsqr (sqrt e * sin (k / 2))).
    { apply Rsqr_incr_1; [|lra|apply Rmult_le_pos; lra]. rewrite <- (Rmult_1_l (sin (k / 2))) at 1. apply Rmult_le_compat_r; lra. }
    lra. }
  split.
  - apply Rmult_le_reg_r with c; [exact CP|]. unfold Rdiv. rewrite Rmult_assoc, Rinv_l by lra. apply Rle_trans with (sqrt e * d); [apply Rmult_le_compat_l; lra|lra].
  - unfold Rdiv. apply Rmult_le_compat_r; [left; apply Rinv_0_lt_compat; exact CP|]. rewrite <- (Rmult_1_r (sqrt e)) at 2. apply Rmult_le_compat_l; lra.
Qed.
Lemma thickness_close k e L : 0 < k < PI -> 1 <= e -> sqrt e * sin (k / 2) < 1 ->
  cos (grid_phase k e / 2) * INR L <= grid_thickness k e L <= INR L / cos (k / 2).
Proof.
  intros K E H. destruct (grid_phase_spec k e K ltac:(lra) H) as (P & SE & SP & CP). destruct (half_pos k K) as (S & C & T).
  assert (Q : 1 <= sqrt e) by (rewrite <- sqrt_1; apply sqrt_le_1; lra).
  assert (G : grid_thickness k e L = INR L * (grid_phase k e / 2 * cos (grid_phase k e / 2) / (sqrt e * (k / 2) * cos (k / 2)))).
  { unfold grid_thickness, grid_index, tan. rewrite SE. field. repeat split; lra. }
  rewrite G. set (x := grid_phase k e / 2) in *. set (y := k / 2) in *. assert (X0 : 0 < x) by (unfold x; lra). assert (Y0 : 0 < y) by (unfold y; lra).
  pose proof (x_cos_sin x X0 ltac:(unfold x; lra)) as X1. pose proof (sin_le x X0) as X2. pose proof (x_cos_sin y Y0 ltac:(unfold y; lra)) as Y1. pose proof (sin_le y Y0) as Y2.
  rewrite SE in X1, X2. pose proof (pos_INR L) as IL. assert (DP : 0 < sqrt e * y * cos y) by (repeat apply Rmult_lt_0_compat; lra).
  split.
  - rewrite Rmult_comm. apply Rmult_le_compat_l; [exact IL|]. apply le_div; [exact DP|]. rewrite Rmult_comm. apply Rmult_le_compat_r; [lra|].
    apply Rle_trans with (sqrt e * sin y); [rewrite Rmult_assoc; apply Rmult_le_compat_l; lra|lra].
  - unfold Rdiv at 2. apply Rmult_le_compat_l; [exact IL|]. apply div_le; [exact DP|].
    replace (/ cos y * (sqrt e * y * cos y)) with (sqrt e * y) by (field; lra).
    apply Rle_trans with (sqrt e * sin y); [lra|apply Rmult_le_compat_l; lra].
Qed.
Lemma wavelength_close co k w y : 0 < co -> 0 < k < PI -> 0 < co * y <= PI -> w = 2 * (co * y) -> sin (w / 2) = co * sin (k / 2) ->
  y * cos (co * y) <= k / 2 <= y / cos (k / 2).
Proof.
  intros Co K Y W D. destruct (half_pos k K) as (S & C & T). replace (w / 2) with (co * y) in D by (rewrite W; field).
  pose proof (x_cos_sin (co * y) ltac:(lra) ltac:(lra)) as A1. pose proof (sin_le (co * y) ltac:(lra)) as A2. rewrite D in A1, A2.
  pose proof (x_cos_sin (k / 2) ltac:(lra) ltac:(lra)) as B1. pose proof (sin_le (k / 2) ltac:(lra)) as B2.
  assert (A1' : y * cos (co * y) <= sin (k / 2)) by (apply Rmult_le_reg_l with co; [exact Co|lra]).
  assert (A2' : sin (k / 2) <= y) by (apply Rmult_le_reg_l with co; [exact Co|lra]).
  split; [lra|]. apply le_div; [exact C|lra].
Qed.

(** ** Simulations *)
Lemma layer_cells_length c layers : length (layer_cells c layers) = length layers.
Proof. unfold layer_cells. rewrite map_length, seq_length. reflexivity. Qed.
Lemma layer_cells_nth c layers j : (j < length layers)%nat -> nth j (layer_cells c layers) (0, 0%nat) = (fst (nth j layers (0, 0)), (edge c (S j) - edge c j)%nat).
Proof.
  intros H. unfold layer_cells. set (f := fun j => _). rewrite (nth_indep _ _ (f 0%nat)) by (rewrite map_length, seq_length; exact H).
  rewrite map_nth, seq_nth by exact H. reflexivity.
Qed.
Lemma layer_starts c layers j : proper c -> (j <= length layers)%nat -> start (edge c 0) (layer_cells c layers) j = edge c j.
Proof.
  intros P. induction j as [|j IH]; intros H; [unfold start; cbn; lia|].
  rewrite start_S by (rewrite layer_cells_length; lia). rewrite IH, layer_cells_nth by lia. cbn [snd]. pose proof (edge_mono c j P). lia.
Qed.
Lemma simulated c slice wl row layers g s0 : proper c -> 1 <= f_scaling c * f_pml c -> known_kinds c -> 0 < wl ->
  f_thick c <> [] -> get slice 0 = Ok row -> get row 0 = Ok layers -> layers <> [] ->
  (forall e, In e layers -> 0 < fst e /\ snd e = 0) ->
  Rtrunc (f_src_x c * f_scaling c) = Z.of_nat s0 -> (pml_columns c <= S s0)%nat ->
  init_fdtd c (Some slice) wl = Ok g ->
  exists eps sig, free_columns g eps sig (S s0) (columns c - pml_columns c - 1)
    /\ stands_between eps sig (edge c 0) (edge c (length layers) - 1)
    /\ (forall x, sig x = 0) /\ filled eps (edge c 0) (layer_cells c layers)
    /\ start (edge c 0) (layer_cells c layers) (length (layer_cells c layers)) = edge c (length layers).
Proof.
  intros P H1 KN W TN G1 G2 LN Hl T PS I.
  destruct (simulation c slice wl row layers g s0 P H1 KN W TN G1 G2 LN) as (eps & sig & F & St & E2 & Ly); auto.
  { intros e He. destruct (Hl e He) as [A B]. lra. }
  exists eps, sig. split; [exact F|]. split; [exact St|]. split; [|split].
  - intros x. destruct (Nat.lt_ge_cases x (edge c 0)) as [L|L]; [apply (St x); lia|].
    destruct (Nat.lt_ge_cases (edge c (length layers) - 1) x) as [L'|L']; [apply (St x); lia|].
    destruct (Nat.eq_dec (edge c (length layers)) 0) as [Z|Z]; [pose proof (edge_le c 0 (length layers) P); lia|].
    destruct (layer_of c x (length layers) ltac:(lia)) as (j & Hj & Hx). destruct (Ly j x Hj Hx) as [_ ->].
    destruct (Hl (nth j layers (0, 0)) ltac:(apply nth_In; exact Hj)) as [_ B]. unfold conductivity. rewrite B. unfold Rdiv. ring.
  - intros j x Hj Hx. rewrite layer_cells_length in Hj. rewrite !layer_starts in Hx by (exact P || lia).
    rewrite layer_cells_nth by exact Hj. cbn [fst]. apply (Ly j x Hj Hx).
  - rewrite layer_cells_length. apply layer_starts; [exact P|lia].
Qed.

Lemma settled_slab arcsin eps sig w k A g g1 g2 lo hi n a b layers : inverts_sine arcsin -> principal arcsin ->
  free_columns g eps sig lo hi -> 0 < g_courant g -> (0 < g_N g AY)%nat -> (0 < g_N g AZ)%nat ->
  0 < k < PI -> 0 < w < PI -> sin (w / 2) = g_courant g * sin (k / 2) ->
  stands_between eps sig a b -> (forall x, sig x = 0) -> (lo + 2 <= a <= b)%nat -> (b + 2 <= hi)%nat ->
  filled eps a layers -> (b + 1 = start a layers (length layers))%nat ->
  (forall q, In q layers -> 0 < fst q /\ sqrt (fst q) * sin (k / 2) < 1) ->
  step g = Ok g1 -> step g1 = Ok g2 -> oscillates w A g n lo hi -> oscillates w A g1 (S n) lo hi -> oscillates w A g2 (S (S n)) lo hi ->
  exists D, coh_tmm arcsin "s"%string (slab_indices k layers) (slab_thicknesses k layers) C0 (2 * PI / k) = Ok D
    /\ exists u v t s, (forall x, (lo <= x <= a)%nat -> A x = waves k u v x) /\ (forall x, (b <= x <= hi)%nat -> A x = waves k t s x)
    /\ (s = C0 -> v = (u * (c_r D * Cis (k * (2 * INR a - 1))))%C /\ t = (u * (c_t D * Cis (- (k * INR (b + 1 - a)))))%C
         /\ Cnorm2 v = c_R D * Cnorm2 u /\ Cnorm2 t = c_T D * Cnorm2 u).
Proof.
  intros inv pri F Co NY NZ K W D M Z La Lb Fi Hb Hl E1 E2 O0 O1 O2.
  destruct (scattered_exists (g_courant g) w k eps sig a b Co K W D M ltac:(lia)) as (B & r & t & Sc).
  destruct (agree arcsin (g_courant g) w k a b layers eps sig B r t inv pri Co K D Hl M Z ltac:(lia) Hb Fi Sc) as (R & HR & Cr & Ct & CR & CT).
  exists R. split; [exact HR|].
  destruct (power_balance eps sig w k A g g1 g2 lo hi n a b F Co NY NZ K W D M La Lb E1 E2 O0 O1 O2) as (u & v & t' & s & L & Rt & _ & U).
  exists u, v, t', s. split; [exact L|]. split; [exact Rt|]. intros Hs. destruct (U Hs B r t Sc) as [-> ->].
  assert (Ci1 : forall y z, (z * Cis (- y) * Cis y)%C = z).
  { intros y z. replace (z * Cis (- y) * Cis y)%C with (z * (Cis y * Cis (- y)))%C by ring. rewrite <- Cis_add, Rplus_opp_r, Cis_0. ring. }
  split; [rewrite Cr, Ci1; reflexivity|]. split.
  - rewrite Ct. rewrite <- (Ropp_involutive (k * INR (b + 1 - a))) at 1. rewrite Ci1. reflexivity.
  - rewrite CR, CT, !Cnorm2_mul. split; ring.
Qed.

Lemma glass_base : exists g0 eps sig, init_fdtd stack_cfg (Some glass_slice) (1 / 1000000) = Ok g0 /\ 0 < g_courant g0 < 1
  /\ free_columns g0 eps sig 16 54 /\ stands_between eps sig 25 44 /\ (forall x, sig x = 0) /\ filled eps 25 glass_cells
  /\ (44 + 1 = start 25 glass_cells (length glass_cells))%nat
  /\ g_N g0 AY = 3%nat /\ g_N g0 AZ = 1%nat
  /\ forall E H n, exists g', run_steps n (refilled g0 E H) = Ok g'.
Proof.
  destruct stack_facts as (P & KN & US & C70 & P15 & E25 & E45 & T15).
  assert (H1 : 1 <= f_scaling stack_cfg * f_pml stack_cfg) by (cbn; lra). assert (W : 0 < 1 / 1000000) by lra.
  assert (TN : f_thick stack_cfg <> []) by discriminate.
  set (layers := [(4, 0); (2, 0)]). assert (LN : layers <> []) by discriminate.
  destruct (material_layout stack_cfg glass_slice (1 / 1000000) [layers] layers P H1 KN W TN eq_refl eq_refl LN) as [Ex Ml].
  destruct (proj1 Ex) as [g0 I]; [cbn; lia|]. clear Ex.
  destruct (simulated stack_cfg glass_slice (1 / 1000000) [layers] layers g0 15 P H1 KN W TN eq_refl eq_refl LN) as (eps & sig & F & St & Z & Fi & Le).
  { intros e [<-|[<-|[]]]; cbn; lra. }
  { exact T15. }
  { lia. }
  { exact I. }
  rewrite C70, P15 in F. cbn [length layers] in St. rewrite E25, E45 in St. cbn [Nat.sub] in F, St.
  destruct (init_time_step stack_cfg _ _ g0 P H1 KN W I) as (Co & _). destruct (Ml g0 I) as ((_ & NY & NZ & _ & _ & _ & St0 & _) & _).
  assert (S2 : 0 < sqrt 2) by (apply sqrt_lt_R0; lra). assert (S1 : 1 <= sqrt 2) by (rewrite <- sqrt_1; apply sqrt_le_1; lra).
  assert (E35 : edge stack_cfg 1 = 35%nat) by (unfold edge, layer_begin; col).
  assert (GC : layer_cells stack_cfg layers = glass_cells) by (unfold layer_cells, layers; cbn [length seq map nth fst]; rewrite E25, E35, E45; reflexivity).
  rewrite GC, E25 in Fi, Le.
  exists g0, eps, sig. split; [exact I|]. split.
  { rewrite Co. split; [apply Rdiv_lt_0_compat; lra|]. apply Rmult_lt_reg_r with (sqrt 2); [lra|]. unfold Rdiv. rewrite Rmult_assoc, Rinv_l by lra. lra. }
  split; [exact F|]. split; [exact St|]. split; [exact Z|]. split; [exact Fi|]. split; [reflexivity|].
  split; [exact NY|]. split; [exact NZ|].
  intros E H n. assert (UM : UNIT_MAGNITUDE <= 1 / 1000000 * f_scaling stack_cfg) by (unfold UNIT_MAGNITUDE; cbn; lra).
  destruct (simulation_runs stack_cfg (Some glass_slice) (1 / 1000000) g0 n P H1 KN US UM) as [g' R0].
  - right. exists glass_slice, [layers], layers. repeat split.
  - exact I.
  - pose proof (proj1 (run_ok n g0)) as Q. rewrite R0 in Q. specialize (Q eq_refl).
    pose proof (proj2 (run_ok n (refilled g0 E H))) as Q'. unfold refilled in Q'. cbn [with_fields g_N g_boundaries g_detectors g_sources g_steps] in Q'. rewrite St0 in Q.
    specialize (Q' Q). fold (refilled g0 E H) in Q'. destruct (run_steps n (refilled g0 E H)) as [g''|]; [eauto|discriminate].
Qed.

Lemma glass_waves : forall q, In q glass_cells -> 1 <= fst q /\ sqrt (fst q) * sin (PI / 20 / 2) < 1.
Proof.
  pose proof PI_RGT_0 as PP. pose proof PI_4 as P4. assert (SK : 0 < sin (PI / 20 / 2)) by (apply sin_gt_0; lra).
  assert (SK1 : sin (PI / 20 / 2) < 1 / 2) by (apply Rlt_trans with (PI / 20 / 2); [apply sin_lt_x; lra|lra]).
  assert (S4 : sqrt 4 = 2) by (replace 4 with (2 * 2) by ring; apply sqrt_square; lra). assert (S2 : sqrt 2 <= 2) by (rewrite <- S4; apply sqrt_le_1; lra).
  intros q [<-|[<-|[]]]; cbn [fst]; (split; [lra|]); [rewrite S4; lra|nra].
Qed.

Lemma glass_case : exists g0 g g1 g2 eps sig w A r t,
  init_fdtd stack_cfg (Some glass_slice) (1 / 1000000) = Ok g0
  /\ g = with_fields g0 (E_osc w A 0) (H_osc (g_courant g0) w A 0) 0 (g_boundaries g0) (g_detectors g0)
  /\ free_columns g eps sig 18 52 /\ stands_between eps sig 25 44 /\ (forall x, sig x = 0) /\ filled eps 25 glass_cells
  /\ (44 + 1 = start 25 glass_cells (length glass_cells))%nat
  /\ (forall q, In q glass_cells -> 1 <= fst q /\ sqrt (fst q) * sin (PI / 20 / 2) < 1)
  /\ 0 < g_courant g /\ (0 < g_N g AY)%nat /\ (0 < g_N g AZ)%nat /\ 0 < w < PI /\ sin (w / 2) = g_courant g * sin (PI / 20 / 2)
  /\ scattered (g_courant g) w (PI / 20) eps sig 25 44 A r t
  /\ step g = Ok g1 /\ step g1 = Ok g2 /\ oscillates w A g 0 18 52 /\ oscillates w A g1 1 18 52 /\ oscillates w A g2 2 18 52.
Proof.
  destruct glass_base as (g0 & eps & sig & I & [C0' C1'] & F & St & Z & Fi & Le & NY & NZ & Rn'). pose proof PI_RGT_0 as PP.
  assert (SK : 0 < sin (PI / 20 / 2)) by (apply sin_gt_0; lra). assert (SK1 : sin (PI / 20 / 2) <= 1) by apply SIN_bound.
  destruct (solve_sine (g_courant g0 * sin (PI / 20 / 2))) as (w & Wb & Dw).
  { split; [apply Rmult_lt_0_compat; assumption|]. apply Rle_lt_trans with (g_courant g0 * 1); [apply Rmult_le_compat_l; lra|lra]. }
  destruct (scattered_exists (g_courant g0) w (PI / 20) eps sig 25 44 C0' ltac:(lra) Wb Dw St ltac:(lia)) as (A & r & t & Sc).
  set (g := with_fields g0 (E_osc w A 0) (H_osc (g_courant g0) w A 0) 0 (g_boundaries g0) (g_detectors g0)).
  assert (Rn : forall n, exists g', run_steps n g = Ok g') by (intros n; apply Rn').
  assert (Fg : free_columns g eps sig 16 54) by exact F.
  assert (Og : oscillates w A g 0 16 54) by (intros p c G L; split; reflexivity).
  assert (Hw : sin (w / 2) <> 0) by (rewrite Dw; apply Rgt_not_eq, Rmult_lt_0_compat; assumption).
  destruct (Rn 2%nat) as [g2 R2]. cbn [run_steps] in R2.
  destruct (step g) as [g1|] eqn:E1; [|discriminate]. cbn [bind] in R2. destruct (step g1) as [g2'|] eqn:E2; [|discriminate]. cbn [bind] in R2. injection R2 as ->.
  destruct Sc as (SB & SL & SR).
  assert (Ps : forall x, (16 <= x <= 54)%nat -> 0 < eps x /\ 0 <= sig x) by (intros x _; destruct (St x) as (? & ? & _); auto).
  assert (Bl : forall x, (16 < x < 54)%nat -> balanced (g_courant g) w eps sig A x) by (intros x Hx; apply SB; lia).
  assert (O1 : oscillates w A g1 1 17 53).
  { apply (oscillation eps sig w A g g1 16 54 0 1 Fg Hw C0' Ps Bl Og). cbn [run_steps]. rewrite E1. reflexivity. }
  assert (O2 : oscillates w A g2 2 18 52).
  { apply (oscillation eps sig w A g g2 16 54 0 2 Fg Hw C0' Ps Bl Og). cbn [run_steps]. rewrite E1. cbn [bind]. rewrite E2. reflexivity. }
  exists g0, g, g1, g2, eps, sig, w, A, r, t. split; [exact I|]. split; [reflexivity|].
  split; [eapply sub_columns; [| |exact Fg]; lia|]. split; [exact St|].
  split; [exact Z|]. split; [exact Fi|]. split; [exact Le|]. split; [exact glass_waves|].
  split; [exact C0'|]. split; [unfold g; cbn [with_fields g_N]; lia|]. split; [unfold g; cbn [with_fields g_N]; lia|].
  split; [exact Wb|]. split; [exact Dw|]. split; [split; [exact SB|split; [exact SL|exact SR]]|].
  split; [exact E1|]. split; [exact E2|].
  split; [eapply sub_oscillates; [| |exact Og]; lia|].
  split; [eapply sub_oscillates; [| |exact O1]; lia|exact O2].
Qed.
