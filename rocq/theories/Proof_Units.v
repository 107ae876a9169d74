From Coq Require Import Reals ZArith String List Bool Lra Lia Psatz.
From Verif Require Import Base BaseLemmas Model_Units.
Import ListNotations.
Open Scope R_scope.

Lemma UM_pos : 0 < UNIT_MAGNITUDE.
Proof. unfold UNIT_MAGNITUDE; lra. Qed.

Lemma freq_wl_roundtrip f : f <> 0 -> freq_to_wl (freq_to_wl f) = f.
Proof. intros; unfold freq_to_wl; field; auto. Qed.
Lemma phys_wl_roundtrip w : wl_to_phys_wl (phys_wl_to_wl w) = w /\ phys_wl_to_wl (wl_to_phys_wl w) = w.
Proof. pose proof UM_pos. unfold wl_to_phys_wl, phys_wl_to_wl. split; field; lra. Qed.
Lemma phys_freq_roundtrip f : f <> 0 -> phys_freq_to_phys_wl (phys_freq_to_phys_wl f) = f.
Proof. intros; unfold phys_freq_to_phys_wl, SPEED_OF_LIGHT; field; auto. Qed.
Lemma freq_to_wl_decreasing a b : 0 < a < b -> 0 < freq_to_wl b < freq_to_wl a.
Proof.
  intros. unfold freq_to_wl, Rdiv. rewrite !Rmult_1_l. split.
  - apply Rinv_0_lt_compat; lra.
  - apply Rinv_lt_contravar; nra.
Qed.
Lemma phys_freq_decreasing a b : 0 < a < b -> 0 < phys_freq_to_phys_wl b < phys_freq_to_phys_wl a.
Proof.
  intros. unfold phys_freq_to_phys_wl, SPEED_OF_LIGHT, Rdiv.
  assert (/ b < / a) by (apply Rinv_lt_contravar; nra).
  assert (0 < / b) by (apply Rinv_0_lt_compat; lra). lra.
Qed.

Lemma EPS_0_pos : 0 < EPS_0.
Proof. unfold EPS_0. assert (0 < / 10 ^ 12) by (apply Rinv_0_lt_compat; lra). lra. Qed.
Lemma MU_0_pos : 0 < MU_0.
Proof. unfold MU_0. pose proof PI_RGT_0. lra. Qed.

Lemma sim_world_E x : worldE_to_simE (simE_to_worldE x) = x /\ simE_to_worldE (worldE_to_simE x) = x.
Proof.
  assert (sqrt EPS_0 <> 0) by (pose proof (sqrt_lt_R0 _ EPS_0_pos); lra).
  unfold worldE_to_simE, simE_to_worldE. split; field; auto.
Qed.
Lemma sim_world_H x : worldH_to_simH (simH_to_worldH x) = x /\ simH_to_worldH (worldH_to_simH x) = x.
Proof.
  assert (sqrt MU_0 <> 0) by (pose proof (sqrt_lt_R0 _ MU_0_pos); lra).
  unfold worldH_to_simH, simH_to_worldH. split; field; auto.
Qed.

(** The frequency band in plain numbers. *)
Lemma freq_of_wl w : 0 < w -> freq_to_wl (phys_wl_to_wl w) = / 1000000 / w.
Proof. intros. unfold freq_to_wl, phys_wl_to_wl, UNIT_MAGNITUDE. field. lra. Qed.

Lemma band_order lo hi : 0 < lo < hi -> 0 < / 1000000 / hi < / 1000000 / lo.
Proof.
  intros. assert (/ hi < / lo) by (apply Rinv_lt_contravar; nra).
  assert (0 < / hi) by (apply Rinv_0_lt_compat; lra).
  unfold Rdiv. lra.
Qed.

Lemma ln10_pos : 0 < ln 10.
Proof. rewrite <- ln_1. apply ln_increasing; lra. Qed.

Lemma pow10_log10 x : 0 < x -> Rpower 10 (log10 x) = x.
Proof.
  intros. unfold Rpower, log10. pose proof ln10_pos.
  replace (ln x / ln 10 * ln 10) with (ln x) by (field; lra). apply exp_ln; auto.
Qed.

Lemma log10_lt a b : 0 < a < b -> log10 a < log10 b.
Proof.
  intros. unfold log10, Rdiv. pose proof ln10_pos.
  apply Rmult_lt_compat_r; [apply Rinv_0_lt_compat; auto|]. apply ln_increasing; lra.
Qed.

Lemma logspace_length a b n : length (logspace10 a b n) = n.
Proof. unfold logspace10. rewrite map_length. apply linspace_length. Qed.

Lemma logspace_nth a b n i d : (i < n)%nat ->
  nth i (logspace10 a b n) d = Rpower 10 (nth i (linspace a b n) 0).
Proof. intros. unfold logspace10. apply nth_map_in. rewrite linspace_length; auto. Qed.

(** The sequence before sorting. *)
Definition raw_freqs (a b : R) n (log : bool) : list R :=
  if log then logspace10 (log10 a) (log10 b) n else linspace a b n.

Lemma raw_length a b n lg : length (raw_freqs a b n lg) = n.
Proof. destruct lg; simpl; [apply logspace_length|apply linspace_length]. Qed.

Lemma raw_strict a b n lg i j : 0 < a < b -> (i < j < n)%nat ->
  nth i (raw_freqs a b n lg) 0 < nth j (raw_freqs a b n lg) 0.
Proof.
  intros. destruct lg; simpl.
  - rewrite !logspace_nth by lia. unfold Rpower. apply exp_increasing.
    apply Rmult_lt_compat_r; [apply ln10_pos|].
    apply linspace_strict; auto. apply log10_lt; auto.
  - apply linspace_strict; auto. lra.
Qed.

Lemma raw_range a b n lg i : 0 < a < b -> (i < n)%nat ->
  a <= nth i (raw_freqs a b n lg) 0 <= b.
Proof.
  intros. destruct lg; simpl.
  - rewrite logspace_nth by auto.
    assert (log10 a <= log10 b) by (left; apply log10_lt; auto).
    destruct (linspace_range (log10 a) (log10 b) n i 0 H1 H0).
    rewrite <- (pow10_log10 a) at 1 by lra. rewrite <- (pow10_log10 b) at 3 by lra.
    split; apply Rle_Rpower; try lra.
  - apply linspace_range; auto. lra.
Qed.

Lemma raw_first a b n lg : 0 < a -> (0 < n)%nat -> nth 0 (raw_freqs a b n lg) 0 = a.
Proof.
  intros. destruct lg; simpl.
  - rewrite logspace_nth by auto. rewrite linspace_first by auto. apply pow10_log10; auto.
  - apply linspace_first; auto.
Qed.
Lemma raw_last a b n lg : 0 < b -> (1 < n)%nat -> nth (n-1) (raw_freqs a b n lg) 0 = b.
Proof.
  intros. destruct lg; simpl.
  - rewrite logspace_nth by lia. rewrite linspace_last by auto. apply pow10_log10; auto.
  - apply linspace_last; auto.
Qed.

Lemma raw_sorted a b n lg : 0 < a < b -> Rsort (raw_freqs a b n lg) = raw_freqs a b n lg.
Proof.
  intros. apply Rsort_id. apply nth_sorted_StronglySorted.
  rewrite raw_length. intros. left. apply raw_strict; auto.
Qed.

Lemma ctf_raw lo hi n dist : 0 < lo < hi -> dist = "linear"%string \/ dist = "log"%string ->
  compute_target_frequencies lo hi n dist =
  Ok (raw_freqs (/ 1000000 / hi) (/ 1000000 / lo) n (String.eqb dist "log")).
Proof.
  intros H Hd. unfold compute_target_frequencies.
  rewrite !freq_of_wl by lra. pose proof (band_order _ _ H) as B.
  destruct Hd; subst.
  - exact (f_equal (@Ok _) (raw_sorted _ _ n false B)).
  - exact (f_equal (@Ok _) (raw_sorted _ _ n true B)).
Qed.

Lemma ctf_all : forall lo hi n dist, 0 < lo < hi -> dist = "linear"%string \/ dist = "log"%string ->
  exists fs, compute_target_frequencies lo hi n dist = Ok fs
  /\ length fs = n
  /\ (forall i j, (i < j < n)%nat -> nth i fs 0 < nth j fs 0)
  /\ (forall i, (i < n)%nat -> / 1000000 / hi <= nth i fs 0 <= / 1000000 / lo)
  /\ ((0 < n)%nat -> nth 0 fs 0 = / 1000000 / hi)
  /\ ((1 < n)%nat -> nth (n - 1) fs 0 = / 1000000 / lo).
Proof.
  intros lo hi n dist H Hd. pose proof (band_order _ _ H) as B.
  eexists. split; [apply ctf_raw; auto|].
  split; [apply raw_length|]. split; [intros; apply raw_strict; auto|].
  split; [intros; apply raw_range; auto|].
  split; intros; [apply raw_first; auto; lra|apply raw_last; auto; lra].
Qed.

Lemma ctf_linear_spacing : forall lo hi n fs, 0 < lo < hi ->
  compute_target_frequencies lo hi n "linear" = Ok fs ->
  forall i, (i + 1 < n)%nat ->
  nth (i+1) fs 0 - nth i fs 0 = (/ 1000000 / lo - / 1000000 / hi) / INR (n - 1).
Proof.
  intros lo hi n fs H E i Hi. rewrite ctf_raw in E by auto. inversion E; subst fs.
  change (raw_freqs (/1000000/hi) (/1000000/lo) n (String.eqb "linear" "log")) with
    (linspace (/1000000/hi) (/1000000/lo) n).
  rewrite !linspace_nth by lia. rewrite plus_INR. simpl (INR 1). ring.
Qed.

Lemma ctf_log_ratio : forall lo hi n fs, 0 < lo < hi ->
  compute_target_frequencies lo hi n "log" = Ok fs ->
  forall i, (i + 1 < n)%nat ->
  nth (i+1) fs 0 / nth i fs 0 = Rpower (hi / lo) (/ INR (n - 1)).
Proof.
  intros lo hi n fs H E i Hi. rewrite ctf_raw in E by auto. inversion E; subst fs.
  change (raw_freqs (/1000000/hi) (/1000000/lo) n (String.eqb "log" "log")) with
    (logspace10 (log10 (/1000000/hi)) (log10 (/1000000/lo)) n).
  rewrite !logspace_nth by lia. rewrite !linspace_nth by lia.
  pose proof (band_order _ _ H) as B. pose proof ln10_pos as L10.
  set (a := / 1000000 / hi) in *. set (b := / 1000000 / lo) in *.
  assert (Hn : INR (n - 1) <> 0) by (apply not_0_INR; lia).
  unfold Rpower. unfold Rdiv at 1. rewrite <- exp_Ropp, <- exp_plus.
  apply f_equal. rewrite plus_INR. simpl (INR 1).
  assert (Hr : hi / lo = b * / a) by (unfold a, b; field; lra).
  rewrite Hr, ln_mult, ln_Rinv by (try apply Rinv_0_lt_compat; lra).
  unfold log10. field. split; auto; lra.
Qed.

Lemma ctf_unknown lo hi n dist : dist <> "linear"%string -> dist <> "log"%string ->
  compute_target_frequencies lo hi n dist = Err ValueError.
Proof.
  intros. unfold compute_target_frequencies.
  apply String.eqb_neq in H. apply String.eqb_neq in H0. rewrite H, H0. reflexivity.
Qed.

Lemma gfp_all : forall lo hi n dist, 0 < lo < hi -> dist = "linear"%string \/ dist = "log"%string ->
  exists wls fs, get_frequency_points lo hi n dist = Ok (wls, fs)
  /\ compute_target_frequencies lo hi n dist = Ok fs
  /\ length wls = n /\ length fs = n
  /\ (forall i, (i < n)%nat -> nth i wls 0 * nth i fs 0 = / 1000000)
  /\ (forall i j, (i < j < n)%nat -> nth j wls 0 < nth i wls 0)
  /\ (forall i, (i < n)%nat -> lo <= nth i wls 0 <= hi).
Proof.
  intros lo hi n dist H Hd.
  destruct (ctf_all lo hi n dist H Hd) as (fs & E & L & S & Rg & _ & _).
  unfold get_frequency_points. rewrite E. simpl.
  exists (map (fun f => wl_to_phys_wl (freq_to_wl f)) fs), fs.
  assert (P : forall i, (i < n)%nat -> 0 < nth i fs 0).
  { intros. pose proof (band_order _ _ H). specialize (Rg i H0). lra. }
  assert (N : forall i, (i < n)%nat ->
    nth i (map (fun f => wl_to_phys_wl (freq_to_wl f)) fs) 0 = / 1000000 * / nth i fs 0).
  { intros. rewrite nth_map_in with (d := 0) by lia.
    unfold wl_to_phys_wl, freq_to_wl, UNIT_MAGNITUDE. unfold Rdiv. ring. }
  repeat split; auto; try (rewrite map_length; auto).
  - intros. rewrite N by auto. specialize (P i H0). field. lra.
  - intros. rewrite !N by lia.
    assert (/ nth j fs 0 < / nth i fs 0).
    { apply Rinv_lt_contravar; [|apply S; auto].
      apply Rmult_lt_0_compat; apply P; lia. }
    lra.
  - rewrite N by auto. specialize (Rg i H0). specialize (P i H0).
    assert (lo * nth i fs 0 <= / 1000000).
    { destruct Rg. apply Rmult_le_compat_l with (r := lo) in H2; [|lra].
      replace (lo * (/1000000 / lo)) with (/1000000) in H2 by (field; lra). auto. }
    apply Rmult_le_reg_r with (nth i fs 0); auto. rewrite Rmult_assoc, Rinv_l; lra.
  - rewrite N by auto. specialize (Rg i H0). specialize (P i H0).
    assert (/ 1000000 <= hi * nth i fs 0).
    { destruct Rg. apply Rmult_le_compat_l with (r := hi) in H1; [|lra].
      replace (hi * (/1000000 / hi)) with (/1000000) in H1 by (field; lra). auto. }
    apply Rmult_le_reg_r with (nth i fs 0); auto. rewrite Rmult_assoc, Rinv_l; lra.
Qed.

Lemma sim_world_linear a b x y :
  simE_to_worldE (a * x + b * y) = a * simE_to_worldE x + b * simE_to_worldE y /\
  worldE_to_simE (a * x + b * y) = a * worldE_to_simE x + b * worldE_to_simE y /\
  simH_to_worldH (a * x + b * y) = a * simH_to_worldH x + b * simH_to_worldH y /\
  worldH_to_simH (a * x + b * y) = a * worldH_to_simH x + b * worldH_to_simH y.
Proof.
  unfold simE_to_worldE, worldE_to_simE, simH_to_worldH, worldH_to_simH, Rdiv.
  repeat split; ring.
Qed.
