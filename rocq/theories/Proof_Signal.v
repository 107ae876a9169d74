(** Proofs about source signals and line profiles. *)
From Coq Require Import Reals ZArith String List Bool Lra Lia Psatz.
From Verif Require Import Base BaseLemmas Model_Units Proof_Units Model_FDTD Model_Register Spec_FDTD Spec_Register Proof_Torus Proof_FDTD Proof_Energy Proof_Propagate Proof_Steps Proof_Linear Proof_Reset Proof_Cavity Proof_Register Proof_Register2 Proof_Material Proof_Index.
Import ListNotations.
Open Scope R_scope.

(** * Waveforms *)

Lemma sin_bound x : Rabs (sin x) <= 1.
Proof. apply Rabs_le. destruct (SIN_bound x). lra. Qed.

Lemma hanning_bound f t n : Rabs (hanning f t n) <= 1.
Proof.
  unfold hanning. rewrite Rabs_mult. pose proof (sin_bound (f * t)) as S.
  assert (C : Rabs (1 / 2 * (1 - cos (f * t / n))) <= 1).
  { destruct (COS_bound (f * t / n)). apply Rabs_le. lra. }
  pose proof (Rabs_pos (sin (f * t))). pose proof (Rabs_pos (1 / 2 * (1 - cos (f * t / n)))). nra.
Qed.

Lemma exp_quadratic v : 0 <= v -> 1 + v + v ^ 2 / 4 <= exp v.
Proof.
  intros Hv. replace (exp v) with (exp (v / 2) * exp (v / 2)) by (rewrite <- exp_plus; f_equal; lra).
  assert (1 + v / 2 <= exp (v / 2)).
  { destruct (Req_dec v 0) as [->|]; [replace (0 / 2) with 0 by lra; rewrite exp_0; lra|].
    left. apply exp_ineq1. lra. }
  assert (0 <= 1 + v / 2) by lra. nra.
Qed.
Lemma ricker_bound q gpw off co : Rabs (ricker q gpw off co) <= 1.
Proof.
  unfold ricker. set (v := (PI * (q * co / gpw - off)) ^ 2).
  assert (Hv : 0 <= v) by apply pow2_ge_0. clearbody v.
  assert (E : exp (- v) * exp v = 1) by (rewrite <- exp_plus; replace (- v + v) with 0 by lra; apply exp_0).
  pose proof (exp_pos (- v)) as P1. pose proof (exp_quadratic v Hv) as Q.
  apply Rabs_le. split.
  - assert ((2 * v - 1) * exp (- v) <= 1); [|lra].
    apply Rle_trans with (exp (- v) * exp v); [|lra]. rewrite Rmult_comm. apply Rmult_le_compat_l; [lra|].
    eapply Rle_trans; [|exact Q]. pose proof (pow2_ge_0 (v / 2 - 1)). nra.
  - assert (exp (- v) <= 1) by (assert (1 <= exp v) by nra; nra). nra.
Qed.

Lemma continuous_periodic amp period phase q : period <> 0%Z ->
  point_value amp (Continuous period phase) (q + Z.abs_nat period) = point_value amp (Continuous period phase) q
  /\ line_factor (Continuous period phase) (q + Z.abs_nat period) = line_factor (Continuous period phase) q.
Proof.
  intros Hp. cbn [point_value line_factor]. assert ((period =? 0)%Z = false) as -> by (apply Z.eqb_neq; exact Hp).
  assert (HR : IZR period <> 0) by (apply not_0_IZR; exact Hp).
  assert (S : sin (2 * PI * INR (q + Z.abs_nat period) / IZR period + phase) = sin (2 * PI * INR q / IZR period + phase)).
  { rewrite plus_INR, INR_IZR_INZ with (n := Z.abs_nat period), Zabs2Nat.id_abs.
    destruct (Z.abs_spec period) as [[_ ->]|[_ ->]].
    - replace (2 * PI * (INR q + IZR period) / IZR period + phase)
        with ((2 * PI * INR q / IZR period + phase) + 2 * INR 1 * PI) by (cbn [INR]; field; exact HR).
      apply sin_period.
    - rewrite <- (sin_period _ 1). apply f_equal. rewrite opp_IZR. cbn [INR]. field. exact HR. }
  rewrite S. auto.
Qed.

Lemma signal_bounded amp s q : bounded_by_amplitude amp (point_value amp s q)
  /\ bounded_by_amplitude 1 (line_factor s q).
Proof.
  assert (M : forall x, Rabs x <= 1 -> Rabs (amp * x) <= Rabs amp).
  { intros x Hx. rewrite Rabs_mult. pose proof (Rabs_pos amp). nra. }
  assert (Z : Rabs 0 <= 1) by (rewrite Rabs_R0; lra).
  destruct s as [period phase|f dt cy|gpw co]; cbn [point_value line_factor]; unfold bounded_by_amplitude; rewrite ?Rabs_R1.
  - destruct (period =? 0)%Z; [auto|]. split; [apply M|]; apply sin_bound.
  - destruct (Reqb cy 0 || _); [auto|]. destruct (_ <? _)%Z; [split; [apply M|]; apply hanning_bound|].
    split; [rewrite Rabs_R0; apply Rabs_pos|exact Z].
  - destruct (Rltb _ _); [split; [exact I|apply ricker_bound]|]. split; [apply M|]; exact Z.
Qed.

Lemma hanning_over amp f dt cy q : cy <> 0 -> f * dt / cy <> 0 -> (hanning_end f dt cy <= Z.of_nat q)%Z ->
  point_value amp (Hanning f dt cy) q = Ok 0 /\ line_factor (Hanning f dt cy) q = Ok 0.
Proof.
  intros H1 H2 H. cbn [point_value line_factor].
  assert (Reqb cy 0 = false) as -> by (apply Reqb_false; exact H1).
  assert (Reqb (f * dt / cy) 0 = false) as -> by (apply Reqb_false; exact H2). cbn [orb].
  assert ((Z.of_nat q <? hanning_end f dt cy)%Z = false) as -> by (apply Z.ltb_ge; exact H). auto.
Qed.
(** The pulse ends where the envelope has completed one period, up to the
    truncation to whole steps. *)
Lemma hanning_end_spec f dt cy : 0 < f -> 0 < dt -> 0 < cy ->
  IZR (hanning_end f dt cy) * (f * dt / cy) <= 2 * PI < (IZR (hanning_end f dt cy) + 1) * (f * dt / cy).
Proof.
  intros Hf Hd Hc. unfold hanning_end.
  assert (HP : 0 < f * dt / cy) by (apply Rdiv_lt_0_compat; [apply Rmult_lt_0_compat|]; assumption).
  set (w := f * dt / cy) in *. clearbody w. pose proof PI_RGT_0.
  rewrite Rtrunc_nonneg by (apply Rmult_le_pos; [lra|left; apply Rinv_0_lt_compat, HP]).
  destruct (Rfloor_spec (2 * PI / w)) as [A B].
  assert (E : 2 * PI / w * w = 2 * PI) by (field; lra).
  apply (Rmult_le_compat_r w) in A; [|lra]. apply (Rmult_lt_compat_r w) in B; [|lra]. lra.
Qed.

(** * Injection *)

Lemma resolve_nat n i : (i < n)%nat -> resolve n (Z.of_nat i) = Ok i.
Proof.
  intros H. unfold resolve. rewrite (proj2 (Z.leb_le 0 _)) by lia. rewrite (proj2 (Z.ltb_lt _ _)) by lia.
  cbn [andb]. rewrite Nat2Z.id. reflexivity.
Qed.

Lemma claim_none_of nm g : (forall n, nm = Some n -> ~ In n (g_attrs g)) -> exists h, claim_name nm g = Ok h /\ same_physics g h.
Proof.
  intros Hn. destruct nm as [n|]; cbn [claim_name].
  - assert (has_attr g n = false) as ->.
    { destruct (has_attr g n) eqn:E; [|reflexivity]. apply has_attr_In in E. destruct (Hn n eq_refl E). }
    eexists. split; [reflexivity|repeat split].
  - eexists. split; [reflexivity|repeat split].
Qed.

(** A continuous point source adds amplitude * sin(2 pi q / P + phase) to Ez of
    its cell at step q, and nothing anywhere else; P is the period in steps. *)
Lemma point_continuous nm s g t i j k : s_period s = PFloat t -> s_signal s = SContinuous ->
  (forall n, nm = Some n -> ~ In n (g_attrs g)) ->
  0 < g_time_step g -> g_time_step g / 2 < t ->
  (i < g_N g AX)%nat -> (j < g_N g AY)%nat -> (k < g_N g AZ)%nat ->
  exists g' src P,
    setitem [KNum (PInt (Z.of_nat i)); KNum (PInt (Z.of_nat j)); KNum (PInt (Z.of_nat k))] (CPoint nm s) g = (g', None)
    /\ g_sources g' = g_sources g ++ [src]
    /\ (0 < P)%Z /\ Rabs (IZR P * g_time_step g - t) <= g_time_step g / 2
    /\ forall q E, exists E', source_update_E (g_N g) q src E = Ok E'
      /\ E' (i, j, k) AZ = E (i, j, k) AZ + s_amplitude s * sin (2 * PI * INR q / IZR P + s_phase s)
      /\ forall p c, (p, c) <> ((i, j, k), AZ) -> E' p c = E p c.
Proof.
  intros Hper Hsig Hn Hd Ht Hi Hj Hk.
  destruct (claim_none_of nm g Hn) as (h & Hc & S).
  set (P := handle_time (g_time_step g) (PFloat t)).
  exists (add_source_ (PointSource (Z.of_nat i, Z.of_nat j, Z.of_nat k) (s_amplitude s) (source_signal g s)) h),
         (PointSource (Z.of_nat i, Z.of_nat j, Z.of_nat k) (s_amplitude s) (source_signal g s)), P.
  assert (HP : Rabs (IZR P * g_time_step g - t) <= g_time_step g / 2) by (apply time_nearest; lra).
  assert (HP0 : (0 < P)%Z).
  { unfold P. cbn [handle_time]. rewrite Rtrunc_nonneg.
    - assert (1 <= t / g_time_step g + / 2).
      { apply (Rmult_le_reg_r (g_time_step g)); [lra|]. rewrite Rmult_plus_distr_r. unfold Rdiv.
        rewrite Rmult_assoc, Rinv_l by lra. lra. }
      apply Z.lt_le_trans with (Rfloor 1); [rewrite (Rfloor_IZR 1); lia|]. apply Rfloor_le. exact H.
    - assert (0 <= t / g_time_step g) by (apply Rmult_le_pos; [lra|left; apply Rinv_0_lt_compat; lra]). lra. }
  split; [|split; [|split; [exact HP0|split; [exact HP|]]]].
  - unfold setitem. cbn [pad_key handle_key handle_distance register]. unfold register_point. rewrite Hc. reflexivity.
  - cbn [add_source_ g_sources]. destruct S as (_ & _ & _ & _ & _ & _ & _ & _ & _ & _ & S & _). rewrite <- S. reflexivity.
  - intros q E. cbn [source_update_E]. unfold source_signal. rewrite Hsig, Hper. cbn [point_value]. fold P.
    assert ((P =? 0)%Z = false) as -> by (apply Z.eqb_neq; lia). cbn [bind].
    assert (R : resolve3 (g_N g) (Z.of_nat i, Z.of_nat j, Z.of_nat k) = Ok (i, j, k)).
    { unfold resolve3. rewrite !resolve_nat by assumption. reflexivity. }
    rewrite R. cbn [bind]. eexists. split; [reflexivity|]. split.
    + unfold add_at, pos_eqb. rewrite !Nat.eqb_refl. reflexivity.
    + intros p c Hpc. unfold add_at. destruct p as [[a b] d]. cbn [pos_eqb].
      destruct (Nat.eqb_spec i a), (Nat.eqb_spec j b), (Nat.eqb_spec k d); cbn [andb]; try reflexivity.
      destruct c; cbn [axis_eqb]; try reflexivity. subst. congruence.
Qed.

(** A ricker point source stops every simulation. *)
Lemma ricker_point_raises nm s g g' key l n : s_signal s = SRicker -> 0 < pynum_R (s_period s) -> 0 < g_spacing g ->
  INR (g_steps g) < 6 * (SPEED_OF_LIGHT * pynum_R (s_period s) / g_spacing g) ->
  setitem key (CPoint nm s) g = (g', None) -> (0 < n)%nat ->
  forall g'', run_steps n (assign_all l g') <> Ok g''.
Proof.
  intros Hsig Hper Hsp Hq H Hn g'' Hrun.
  unfold setitem in H. destruct (pad_key key) as [[[x y] z]|]; [|discriminate]. cbn [register] in H.
  unfold register_point in H. destruct (claim_name nm g) as [g1|] eqn:E; [|discriminate].
  apply claim_name_inv in E as [E _].
  assert (exists c, g' = add_source_ (PointSource c (s_amplitude s) (source_signal g s)) g1) as (c & ->).
  { destruct (handle_key (g_spacing g) x) as [[|? [|]]|], (handle_key (g_spacing g) y) as [[|? [|]]|], (handle_key (g_spacing g) z) as [[|? [|]]|];
      inversion H; eauto. }
  assert (ER : exists g'', run_steps n (assign_all l (add_source_ (PointSource c (s_amplitude s) (source_signal g s)) g1)) = Ok g'') by eauto.
  apply run_raises_iff in ER as [->|(_ & _ & S)]; [lia|].
  specialize (S 0%nat Hn).
  destruct (assign_all_extends l (add_source_ (PointSource c (s_amplitude s) (source_signal g s)) g1))
    as (_ & _ & _ & _ & _ & _ & _ & XS & [l' XL] & _).
  rewrite XL, XS in S. cbn [add_source_ g_sources g_steps] in S. rewrite Forall_forall in S.
  assert (K : In (PointSource c (s_amplitude s) (source_signal g s)) ((g_sources g1 ++ [PointSource c (s_amplitude s) (source_signal g s)]) ++ l'))
    by (apply in_or_app; left; apply in_or_app; right; left; reflexivity).
  specialize (S _ K). cbn [source_ready] in S. destruct S as [S _]. unfold source_signal in S. rewrite Hsig in S.
  cbn [signal_ready] in S. specialize (S eq_refl).
  destruct E as (_ & _ & _ & _ & _ & _ & _ & _ & _ & ES & _). rewrite <- ES, Nat.add_0_r in S.
  unfold s_gpw, s_frequency in S.
  replace (SPEED_OF_LIGHT / (1 / pynum_R (s_period s)) / g_spacing g * 6)
    with (6 * (SPEED_OF_LIGHT * pynum_R (s_period s) / g_spacing g)) in S by (field; lra).
  lra.
Qed.

(** * Line profiles *)

Lemma line_weights_pos v x : In x (line_weights v) -> 0 < x.
Proof. unfold line_weights. intros H. apply in_map_iff in H as (d & <- & _). apply exp_pos. Qed.
Lemma line_weights_length v : length (line_weights v) = length v.
Proof. apply map_length. Qed.
Lemma line_distances_length c : length (line_distances c) = length c.
Proof. apply map_length. Qed.
Lemma weights_sum_pos cells : cells <> [] -> 0 < Rsum (line_weights (line_distances cells)).
Proof.
  intros H. apply Rsum_pos; [|apply line_weights_pos].
  intros E. apply (f_equal (@length _)) in E. rewrite line_weights_length, line_distances_length in E.
  destruct cells; [congruence|discriminate].
Qed.
Lemma profile_positive amp cells : 0 < amp -> cells <> [] -> Forall (fun v => 0 < v) (line_profile amp cells).
Proof.
  intros Ha Hc. unfold line_profile. apply Forall_forall. intros x H. apply in_map_iff in H as (w & <- & Hw).
  apply line_weights_pos in Hw. pose proof (weights_sum_pos cells Hc).
  apply Rmult_lt_0_compat; [|exact Ha]. apply Rdiv_lt_0_compat; assumption.
Qed.
Lemma profile_sum amp cells : cells <> [] -> Rsum (line_profile amp cells) = amp.
Proof.
  intros Hc. unfold line_profile. pose proof (weights_sum_pos cells Hc) as P.
  set (w := line_weights (line_distances cells)) in *.
  transitivity (amp / Rsum w * Rsum w); [|field; lra].
  rewrite <- Rsum_map_mult. apply f_equal. apply map_ext. intros x. field. lra.
Qed.

Definition y_line (x z : Z) (n : nat) : list zpos := map (fun j => (x, Z.of_nat j, z)) (seq 0 n).
Lemma y_line_nth x z n j d : (j < n)%nat -> nth j (y_line x z n) d = (x, Z.of_nat j, z).
Proof.
  intros H. unfold y_line. rewrite (nth_map_in _ _ _ 0%nat d) by (rewrite seq_length; exact H).
  rewrite seq_nth by exact H. reflexivity.
Qed.
Lemma y_line_length x z n : length (y_line x z n) = n.
Proof. unfold y_line. rewrite map_length, seq_length. reflexivity. Qed.
Lemma y_line_distance x z n j d : (j < n)%nat ->
  nth j (line_distances (y_line x z n)) d = (INR j - INR (n / 2)) ^ 2.
Proof.
  intros H. unfold line_distances. rewrite (nth_map_in _ _ _ (0, 0, 0)%Z d) by (rewrite y_line_length; exact H).
  assert (n / 2 < n)%nat by (apply Nat.div_lt; lia).
  rewrite y_line_length, !y_line_nth by lia. cbn [sqdist].
  replace ((x - x) ^ 2 + (Z.of_nat j - Z.of_nat (n / 2)) ^ 2 + (z - z) ^ 2)%Z
    with ((Z.of_nat j - Z.of_nat (n / 2)) * (Z.of_nat j - Z.of_nat (n / 2)))%Z by ring.
  rewrite mult_IZR, minus_IZR, <- !INR_IZR_INZ. ring.
Qed.
Lemma list_max0_ge l x : In x l -> x <= list_max0 l.
Proof.
  induction l as [|y l IH]; [contradiction|]. intros [->|H]; cbn [list_max0 fold_right].
  - apply Rmax_l.
  - eapply Rle_trans; [apply IH, H|apply Rmax_r].
Qed.
Lemma list_max0_nonneg l : 0 <= list_max0 l.
Proof. induction l as [|y l IH]; cbn; [lra|]. eapply Rle_trans; [exact IH|apply Rmax_r]. Qed.

Lemma y_line_max x z n : (2 <= n)%nat -> 0 < list_max0 (line_distances (y_line x z n)).
Proof.
  intros Hn. assert (1 <= n / 2)%nat by (apply Nat.div_le_lower_bound; lia).
  apply Rlt_le_trans with (nth 0 (line_distances (y_line x z n)) 0).
  - rewrite y_line_distance by lia. assert (1 <= INR (n / 2)) by (apply (le_INR 1); lia). cbn [INR].
    replace ((0 - INR (n / 2)) ^ 2) with (INR (n / 2) ^ 2) by ring. nra.
  - apply list_max0_ge. apply nth_In. rewrite line_distances_length, y_line_length. lia.
Qed.

Lemma profile_nth amp x z n j : (j < n)%nat ->
  nth j (line_profile amp (y_line x z n)) 0
  = exp (- ((INR j - INR (n / 2)) ^ 2) ^ 2 / (2 * (/ 2 * list_max0 (line_distances (y_line x z n))) ^ 2))
    / Rsum (line_weights (line_distances (y_line x z n))) * amp.
Proof.
  intros H. unfold line_profile.
  rewrite (nth_map_in _ _ _ 0 0) by (rewrite line_weights_length, line_distances_length, y_line_length; exact H).
  unfold line_weights at 1.
  rewrite (nth_map_in _ _ _ 0 0) by (rewrite line_distances_length, y_line_length; exact H).
  rewrite y_line_distance by exact H. reflexivity.
Qed.

(** The profile of a line across the grid is symmetric about its middle cell
    and strictly smaller farther away from it. *)
Lemma profile_symmetric amp x z n k : (k <= n / 2)%nat -> (n / 2 + k < n)%nat ->
  nth (n / 2 + k) (line_profile amp (y_line x z n)) 0 = nth (n / 2 - k) (line_profile amp (y_line x z n)) 0.
Proof.
  intros H1 H2. rewrite !profile_nth by lia. rewrite plus_INR, minus_INR by exact H1.
  replace (INR (n / 2) + INR k - INR (n / 2)) with (INR k) by ring.
  replace (INR (n / 2) - INR k - INR (n / 2)) with (- INR k) by ring.
  replace ((- INR k) ^ 2) with (INR k ^ 2) by ring. reflexivity.
Qed.
Lemma profile_decreases amp x z n i j : 0 < amp -> (2 <= n)%nat -> (i < n)%nat -> (j < n)%nat ->
  (dist1 i (n / 2) < dist1 j (n / 2))%nat ->
  nth j (line_profile amp (y_line x z n)) 0 < nth i (line_profile amp (y_line x z n)) 0.
Proof.
  intros Ha Hn Hi Hj Hd. rewrite !profile_nth by assumption.
  pose proof (y_line_max x z n Hn) as M. set (mx := list_max0 (line_distances (y_line x z n))) in *. clearbody mx.
  assert (Hne : y_line x z n <> []) by (intros E; apply (f_equal (@length _)) in E; rewrite y_line_length in E; cbn in E; lia).
  pose proof (weights_sum_pos _ Hne) as P. set (sm := Rsum (line_weights (line_distances (y_line x z n)))) in *. clearbody sm.
  apply Rmult_lt_compat_r; [exact Ha|]. apply Rmult_lt_compat_r; [apply Rinv_0_lt_compat, P|].
  apply exp_increasing.
  assert (D : (INR i - INR (n / 2)) ^ 2 < (INR j - INR (n / 2)) ^ 2).
  { assert (A : forall a b, (INR a - INR b) ^ 2 = INR (dist1 a b) ^ 2).
    { intros a b. unfold dist1. destruct (le_ge_dec a b) as [L|L].
      - replace (a - b + (b - a))%nat with (b - a)%nat by lia. rewrite minus_INR by exact L. ring.
      - replace (a - b + (b - a))%nat with (a - b)%nat by lia. rewrite minus_INR by exact L. ring. }
    rewrite !A. apply lt_INR in Hd. pose proof (pos_INR (dist1 i (n / 2))). nra. }
  pose proof (pow2_ge_0 (INR i - INR (n / 2))) as N1. set (a := (INR i - INR (n / 2)) ^ 2) in *. set (b := (INR j - INR (n / 2)) ^ 2) in *.
  clearbody a b.
  assert (W : 0 < 2 * (/ 2 * mx) ^ 2) by nra.
  unfold Rdiv. apply Rmult_lt_compat_r; [apply Rinv_0_lt_compat, W|]. nra.
Qed.

(** [grid[x, :, z] = LineSource(...)]. *)
Lemma line_source_across nm s g x z : (2 <= g_N g AY)%nat -> (forall n, nm = Some n -> ~ In n (g_attrs g)) ->
  exists g' profile, setitem [KNum (PInt x); full_slice; KNum (PInt z)] (CLine nm s) g = (g', None)
    /\ g_sources g' = g_sources g ++ [LineSource (y_line x z (g_N g AY)) profile (source_signal g s)]
    /\ profile = line_profile (s_amplitude s) (y_line x z (g_N g AY)).
Proof.
  intros Hy Hn. destruct (claim_none_of nm g Hn) as (h & Hc & S).
  unfold setitem. cbn [pad_key full_slice handle_key handle_distance option_map register]. unfold register_line. rewrite Hc.
  rewrite line_across_y by lia. fold (y_line x z (g_N g AY)).
  destruct (y_line x z (g_N g AY)) as [|c0 cs] eqn:E.
  { apply (f_equal (@length _)) in E. rewrite y_line_length in E. cbn in E. lia. }
  rewrite <- E. assert (Reqb (list_max0 (line_distances (y_line x z (g_N g AY)))) 0 = false) as ->.
  { apply Reqb_false. pose proof (y_line_max x z _ Hy). lra. }
  do 2 eexists. split; [reflexivity|]. split; [|reflexivity].
  cbn [add_source_ g_sources]. destruct S as (_ & _ & _ & _ & _ & _ & _ & _ & _ & _ & S & _). rewrite <- S. reflexivity.
Qed.
