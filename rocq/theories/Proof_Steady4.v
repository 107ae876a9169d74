From Coq Require Import Reals ZArith String List Bool Lra Lia Psatz.
From Verif Require Import Base BaseLemmas PyVal Cplx CplxLemmas Model_Units Model_Materials Model_EpsGrid Model_Coeffs Spec_Coeffs Model_FDTD Spec_FDTD Proof_FDTD Model_Register Spec_Register Model_Layout Spec_Layout
  Model_TMM Spec_TMM Spec_Harmonic Spec_Slab Proof_EpsGrid Proof_Coeffs Spec_Steady Proof_Steady Proof_Steady2 Proof_Steady3 Proof_Slab Proof_Slab2 Props_Layout Props_Harmonic.
Import ListNotations.
Open Scope R_scope.

(** * What the detectors record *)
Lemma column_of w A g n lo hi x : oscillates w A g n lo hi -> (lo <= x <= hi)%nat -> (x < g_N g AX)%nat -> (3 <= g_N g AY)%nat -> (1 <= g_N g AZ)%nat ->
  column_mean g x = Re (A x * Cis (- (w * INR n)))%C.
Proof.
  intros O Hx X Y Z. unfold column_mean.
  assert (E : forall y, (y < 3)%nat -> g_E g (x, y, 0)%nat AZ = Re (A x * Cis (- (w * INR n)))%C).
  { intros y Hy. destruct (O (x, y, 0)%nat AZ) as [E _]; [intros []; cbn; lia|cbn; exact Hx|]. rewrite E. reflexivity. }
  rewrite !E by lia. field.
Qed.

Lemma run_prefix a b g g' : (a <= b)%nat -> run_steps b g = Ok g' -> exists h, run_steps a g = Ok h.
Proof.
  intros L E. replace b with (a + (b - a))%nat in E by lia. rewrite run_steps_add in E. destruct (run_steps a g) as [h|]; [eauto|discriminate].
Qed.

Lemma recorded f (obj : option eps_slice) wl t r g err n0 P z : proper f -> 1 <= f_scaling f * f_pml f -> known_kinds f -> 0 < wl ->
  (obj = None \/ exists slice row layers, obj = Some slice /\ get slice 0 = Ok row /\ get row 0 = Ok layers) ->
  simulate f obj wl = Ok (t, r) -> init_fdtd f obj wl = Ok g ->
  (detected err n0 P z t <-> forall n, (n0 <= n < Z.to_nat (f_niter f))%nat -> exists gn, run_steps (S n) g = Ok gn
     /\ Rabs (column_mean gn (transmission_column f) - Re (z * Cis (- (2 * PI / INR P * INR (S n))))%C) <= err)
  /\ (detected err n0 P z r <-> forall n, (n0 <= n < Z.to_nat (f_niter f))%nat -> exists gn, run_steps (S n) g = Ok gn
     /\ Rabs (column_mean gn (reflection_column f) - Re (z * Cis (- (2 * PI / INR P * INR (S n))))%C) <= err).
Proof.
  intros A1 A2 A3 A4 A5 E I. destruct (C29_signals f obj wl t r A1 A2 A3 A4 A5 E) as (g' & I' & Lt & Lr & S). rewrite I in I'. injection I' as <-.
  assert (Rn : forall n, (n < Z.to_nat (f_niter f))%nat -> exists gn, run_steps (Datatypes.S n) g = Ok gn).
  { intros n Hn. unfold simulate in E. rewrite I in E. cbn [bind] in E. destruct (run_int (f_niter f) g) as [gf|] eqn:Ef; [|discriminate].
    unfold run_int in Ef. apply (run_prefix (Datatypes.S n) (Z.to_nat (f_niter f)) g gf); [lia|]. destruct (f_niter f); cbn in Ef |- *; try lia; exact Ef. }
  assert (G : forall s col, length s = Z.to_nat (f_niter f) -> (forall k gk, (k < Z.to_nat (f_niter f))%nat -> run_steps (Datatypes.S k) g = Ok gk -> nth_error s k = Some (column_mean gk col)) ->
    (detected err n0 P z s <-> forall n, (n0 <= n < Z.to_nat (f_niter f))%nat -> exists gn, run_steps (Datatypes.S n) g = Ok gn
     /\ Rabs (column_mean gn col - Re (z * Cis (- (2 * PI / INR P * INR (Datatypes.S n))))%C) <= err)).
  { intros s col Ls Hs. split.
    - intros D n Hn. destruct (Rn n ltac:(lia)) as [gn Eg]. exists gn. split; [exact Eg|]. specialize (D n ltac:(lia)). pose proof (Hs n gn ltac:(lia) Eg) as Q.
      rewrite (nth_error_nth _ _ 0 Q) in D. exact D.
    - intros D n Hn. destruct (D n ltac:(lia)) as (gn & Eg & B). pose proof (Hs n gn ltac:(lia) Eg) as Q. rewrite (nth_error_nth _ _ 0 Q). exact B. }
  split; apply G; try assumption; intros k gk Hk Ek; apply (S k gk Hk Ek).
Qed.

(** * Agreement with the transfer-matrix code *)
Lemma reported arcsin co w k a b layers eps sig A r t wd P u tf tm rf rm : inverts_sine arcsin -> principal arcsin ->
  0 < co -> 0 < k < PI -> 0 < w < PI -> sin (w / 2) = co * sin (k / 2) ->
  (forall q, In q layers -> 0 < fst q /\ sqrt (fst q) * sin (k / 2) < 1) ->
  stands_between eps sig a b -> (forall x, sig x = 0) -> (2 <= a <= b)%nat ->
  (b + 1 = start a layers (length layers))%nat -> filled eps a layers -> scattered co w k eps sig a b A r t ->
  (3 <= P)%nat -> 0 < u -> length rm = length rf -> / 10 ^ 15 < mean_square tf -> / 10 ^ 15 < mean_square rf ->
  settles wd true 0 P u tf -> settles wd false 0 P (u * sqrt (Cnorm2 t)) tm -> settles wd true 0 P u rf -> settles wd false 0 P (u * sqrt (Cnorm2 r)) (map2 Rminus rm rf) ->
  exists D, coh_tmm arcsin "s"%string (slab_indices k layers) (slab_thicknesses k layers) C0 (2 * PI / k) = Ok D
    /\ calculate_coefficients wd tf tm rf rm = Ok (Fin (c_T D), Fin (c_R D)).
Proof.
  intros I1 I2 Hc Hk Hw Hs Hl Sb S0 Ab Bl Fi Sc HP U L M1 M2 S1 S2 S3 S4.
  destruct (agree arcsin co w k a b layers eps sig A r t) as (D & E & _ & _ & ER & ET); try assumption. exists D. split; [exact E|].
  destruct (C101_bounds co w k eps sig a b A r t) as [_ B]; try assumption. specialize (B S0).
  assert (N : forall z, 0 <= Cnorm2 z) by (intros z; unfold Cnorm2; nra).
  assert (Q : forall z, (u * sqrt (Cnorm2 z) / u) ^ 2 = Cnorm2 z). { intros z. replace (u * sqrt (Cnorm2 z) / u) with (sqrt (Cnorm2 z)) by (field; lra). simpl. rewrite Rmult_1_r. apply sqrt_sqrt, N. }
  rewrite ER, ET, <- (Q r), <- (Q t). apply (exact_coefficients wd P u _ u _ tf tm rf rm); try assumption.
  - apply Rmult_le_pos; [lra|apply sqrt_pos].
  - apply Rmult_le_pos; [lra|apply sqrt_pos].
  - rewrite !Q. lra.
Qed.

(** * The example *)
Lemma samples_len P n a ph : length (samples P n a ph) = n.
Proof. unfold samples. rewrite map_length, seq_length. reflexivity. Qed.
Lemma samples_nth P n a ph i : (i < n)%nat -> nth i (samples P n a ph) 0 = a * cos (2 * PI * INR i / INR P + ph).
Proof.
  intros H. unfold samples. rewrite (nth_indep _ 0 ((fun j => a * cos (2 * PI * INR j / INR P + ph)) 0%nat)) by (rewrite map_length, seq_length; exact H).
  rewrite (map_nth (fun j => a * cos (2 * PI * INR j / INR P + ph))), seq_nth by exact H. reflexivity.
Qed.
Lemma near_samples err P n a ph : 0 <= err -> near_steady err P a ph (samples P n a ph).
Proof. intros E i Hi. rewrite samples_len in Hi. rewrite samples_nth by exact Hi. rewrite Rminus_diag_eq by reflexivity. rewrite Rabs_R0. exact E. Qed.
Lemma stripped_samples P n a : / 10 ^ 8 < a -> stripped (samples P (S n) a 0) (samples P (S n) a 0).
Proof.
  intros A. right. unfold samples. cbn [seq map]. exists [], (a * cos (2 * PI * INR 0 / INR P + 0)), (map (fun i => a * cos (2 * PI * INR i / INR P + 0)) (seq 1 n)).
  split; [reflexivity|]. split; [reflexivity|]. split; [|intros y []].
  replace (2 * PI * INR 0 / INR P + 0) with 0 by (simpl (INR 0); unfold Rdiv; ring). rewrite cos_0, Rmult_1_r, Rabs_right; lra.
Qed.
Lemma sin_eighth : / 10 < sin (PI / 8) ^ 2.
Proof.
  pose proof (cos_2a_sin (PI / 8)) as H. replace (2 * (PI / 8)) with (PI / 4) in H by field. rewrite cos_PI4 in H.
  assert (sqrt 2 > 1.4) by (apply Rlt_gt; rewrite <- (sqrt_square 1.4) by lra; apply sqrt_lt_1; lra).
  assert (1 / sqrt 2 < 3 / 4). { apply Rmult_lt_reg_r with (sqrt 2); [lra|]. unfold Rdiv. rewrite Rmult_1_l, Rinv_l by lra. lra. }
  simpl. nra.
Qed.
Lemma settles_samples fs err a : 0 <= err -> / 10 ^ 8 < a -> 20 * err < a * 2 -> settles 20 fs err 8 a (samples 8 30 a 0).
Proof.
  intros E0 A M. exists (samples 8 30 a 0), 0. assert (St : stripped (samples 8 30 a 0) (samples 8 30 a 0)) by (apply stripped_samples; exact A).
  split; [apply eliminate_short; [exact St|rewrite samples_len; lia]|]. split; [discriminate|]. split; [apply near_samples; exact E0|]. right.
  split; [rewrite samples_len; lia|]. exists (/ 2). split; [lra|]. split.
  - exists 0%Z. replace (0 / (2 * PI / INR 8) - IZR 0) with 0 by (change (IZR 0) with 0; unfold Rdiv; ring). rewrite Rabs_R0. lra.
  - unfold crest_margin. replace (INR 8) with 8 by (simpl; ring). replace (2 * PI / 8 * / 2) with (PI / 8) by field. pose proof sin_eighth as S. simpl in S. nra.
Qed.
Lemma mean_square_head x l : 0 < x * x -> x * x / INR (length (x :: l)) <= mean_square (x :: l).
Proof.
  intros H. unfold mean_square. assert (0 < INR (length (x :: l))) by (apply lt_0_INR; cbn; lia). apply Rmult_le_compat_r; [left; apply Rinv_0_lt_compat; assumption|].
  cbn [map]. change (Rsum (?u :: ?v)) with (u + Rsum v). assert (0 <= Rsum (map (fun y => y * y) l)); [|lra].
  induction l as [|y l IH]; [unfold Rsum; cbn; lra|]. cbn [map]. change (Rsum (?u :: ?v)) with (u + Rsum v). assert (0 <= Rsum (map (fun z => z * z) l)) by (apply IH; apply lt_0_INR; cbn; lia). nra.
Qed.
Lemma ex_bright : / 10 ^ 15 < mean_square ex_tf.
Proof.
  assert (E : exists l, ex_tf = 1 :: l /\ length l = 29%nat).
  { unfold ex_tf, samples. cbn [seq map]. eexists. split; [f_equal|reflexivity]. replace (2 * PI * INR 0 / INR 8 + 0) with 0 by (simpl (INR 0); unfold Rdiv; ring). rewrite cos_0. ring. }
  destruct E as (l & -> & Ll). pose proof (mean_square_head 1 l ltac:(lra)) as H. cbn [length] in H. rewrite Ll in H. replace (INR 30) with 30 in H by (simpl; ring). lra.
Qed.
Lemma ex_reflection : map2 Rminus ex_rm ex_tf = samples 8 30 (/ 3) 0.
Proof.
  apply (nth_ext _ _ 0 0); [rewrite map2_len; unfold ex_rm, ex_tf; rewrite !samples_len; reflexivity|].
  intros n Hn. rewrite map2_len in Hn. unfold ex_rm, ex_tf in *. rewrite !samples_len in Hn. rewrite map2_nth by (rewrite samples_len; lia). rewrite !samples_nth by lia. field.
Qed.
Lemma ex_settles err : 0 <= err -> 100 * err <= 1 -> settles 20 true err 8 1 ex_tf /\ settles 20 false err 8 (/ 2) ex_tm /\ settles 20 false err 8 (/ 3) (map2 Rminus ex_rm ex_tf)
  /\ length ex_rm = length ex_tf /\ / 10 ^ 15 < mean_square ex_tf.
Proof.
  intros E0 E1. rewrite ex_reflection. split; [apply settles_samples; lra|]. split; [apply settles_samples; lra|]. split; [apply settles_samples; lra|].
  split; [unfold ex_rm, ex_tf; rewrite !samples_len; reflexivity|exact ex_bright].
Qed.
Lemma ex_result : calculate_coefficients 20 ex_tf ex_tm ex_tf ex_rm = Ok (Fin (/ 4), Fin (/ 9)).
Proof.
  destruct (ex_settles 0 ltac:(lra) ltac:(lra)) as (A & B & C & D & E).
  rewrite (exact_coefficients 20 8 1 (/ 2) 1 (/ 3) ex_tf ex_tm ex_tf ex_rm); try assumption; try lra; try lia.
  f_equal. f_equal; f_equal; field.
Qed.

(** Signals of the amplitudes the two layers of the example of C103 reflect and transmit. *)
Lemma settles_any fs a : 0 <= a -> settles 20 fs 0 8 a (samples 8 30 a 0).
Proof.
  intros A. destruct (Rlt_le_dec (/ 10 ^ 8) a) as [B|B]; [apply settles_samples; lra|].
  assert (St : stripped (samples 8 30 a 0) (samples 8 30 a 0)).
  { left. split; [reflexivity|]. intros x Hx. destruct (In_nth _ _ 0 Hx) as (n & Hn & <-). rewrite samples_len in Hn. rewrite samples_nth by exact Hn.
    rewrite Rabs_mult, (Rabs_right a) by lra. pose proof (COS_bound (2 * PI * INR n / INR 8 + 0)) as C. assert (Rabs (cos (2 * PI * INR n / INR 8 + 0)) <= 1) by (apply Rabs_le; lra). nra. }
  exists (samples 8 30 a 0), 0. split; [apply eliminate_short; [exact St|rewrite samples_len; lia]|]. split; [discriminate|]. split; [apply near_samples; lra|].
  destruct A as [A|A]; [|left; symmetry; exact A]. right. split; [rewrite samples_len; lia|]. exists (/ 2). split; [lra|]. split.
  - exists 0%Z. replace (0 / (2 * PI / INR 8) - IZR 0) with 0 by (change (IZR 0) with 0; unfold Rdiv; ring). rewrite Rabs_R0. lra.
  - unfold crest_margin. replace (INR 8) with 8 by (simpl; ring). replace (2 * PI / 8 * / 2) with (PI / 8) by field. pose proof sin_eighth as S. simpl in S. nra.
Qed.
Lemma reported_case : exists co eps sig w A r t tm rm, 0 < co /\ 0 < w < PI /\ sin (w / 2) = co * sin (PI / 20 / 2)
  /\ (forall q, In q glass_cells -> 0 < fst q /\ sqrt (fst q) * sin (PI / 20 / 2) < 1)
  /\ stands_between eps sig 25 44 /\ (forall x, sig x = 0) /\ (44 + 1 = start 25 glass_cells (length glass_cells))%nat /\ filled eps 25 glass_cells
  /\ scattered co w (PI / 20) eps sig 25 44 A r t /\ length rm = length ex_tf /\ / 10 ^ 15 < mean_square ex_tf
  /\ settles 20 true 0 8 1 ex_tf /\ settles 20 false 0 8 (1 * sqrt (Cnorm2 t)) tm /\ settles 20 false 0 8 (1 * sqrt (Cnorm2 r)) (map2 Rminus rm ex_tf).
Proof.
  destruct glass_case as (g0 & g & g1 & g2 & eps & sig & w & A & r & t & _ & _ & _ & St & Z & Fi & Le & Hq & C & _ & _ & W & Sn & Sc & _).
  exists (g_courant g), eps, sig, w, A, r, t, (samples 8 30 (1 * sqrt (Cnorm2 t)) 0), (samples 8 30 (1 + 1 * sqrt (Cnorm2 r)) 0).
  split; [exact C|]. split; [exact W|]. split; [exact Sn|]. split; [intros q Q; specialize (Hq q Q); lra|]. split; [exact St|]. split; [exact Z|]. split; [exact Le|]. split; [exact Fi|]. split; [exact Sc|].
  split; [unfold ex_tf; rewrite !samples_len; reflexivity|]. split; [exact ex_bright|]. split; [apply settles_any; lra|].
  pose proof (sqrt_pos (Cnorm2 t)) as T. pose proof (sqrt_pos (Cnorm2 r)) as Rr. split; [apply settles_any; lra|].
  replace (map2 Rminus (samples 8 30 (1 + 1 * sqrt (Cnorm2 r)) 0) ex_tf) with (samples 8 30 (1 * sqrt (Cnorm2 r)) 0); [apply settles_any; lra|].
  apply (nth_ext _ _ 0 0); [rewrite map2_len; unfold ex_tf; rewrite !samples_len; reflexivity|].
  intros n Hn. rewrite samples_len in Hn. unfold ex_tf. rewrite map2_nth by (rewrite samples_len; lia). rewrite !samples_nth by lia. ring.
Qed.
(** A crest in the middle between two samples: no sample is a peak. *)
Lemma flat_case : steady 4 1 (PI / 4) (samples 4 20 1 (PI / 4)) /\ flat_crest (samples 4 20 1 (PI / 4)) /\ signal_power (samples 4 20 1 (PI / 4)) = Ok (/ 4).
Proof.
  assert (St : steady 4 1 (PI / 4) (samples 4 20 1 (PI / 4))) by (intros n Hn; rewrite samples_len in Hn; apply samples_nth; lia).
  assert (F : flat_crest (samples 4 20 1 (PI / 4))).
  { exists 3%nat. rewrite samples_len. split; [lia|]. rewrite !samples_nth by lia.
    replace (2 * PI * INR 3 / INR 4 + PI / 4) with (- (PI / 4) + 2 * INR 1 * PI) by (simpl; field).
    replace (2 * PI * INR 4 / INR 4 + PI / 4) with (PI / 4 + 2 * INR 1 * PI) by (simpl; field).
    rewrite !cos_period, cos_neg. split; [reflexivity|]. pose proof (cos_gt_0 (PI / 4)). pose proof PI_RGT_0. lra. }
  split; [exact St|]. split; [exact F|]. rewrite (power_flat 4 1 (PI / 4)); [|lia|lra|exact St|rewrite samples_len; lia|exact F].
  replace (INR 4) with 4 by (simpl; ring). rewrite cos_PI4. pose proof (sqrt_lt_R0 2 ltac:(lra)) as S. pose proof (sqrt_sqrt 2 ltac:(lra)) as S2. f_equal.
  replace (1 ^ 2 * (1 / sqrt 2) ^ 2 / 2) with (/ (sqrt 2 * sqrt 2) / 2) by (field; lra). rewrite S2. field.
Qed.
Lemma exact_case : steady 8 1 0 ex_tf /\ ~ flat_crest ex_tf.
Proof.
  assert (St : steady 8 1 0 ex_tf) by (intros n Hn; unfold ex_tf in *; rewrite samples_len in Hn; apply samples_nth; lia). split; [exact St|].
  intros F. apply (flat_iff 8 1 0 ex_tf) in F; [|lia|lra|exact St|unfold ex_tf; rewrite samples_len; lia].
  pose proof (xx_off 8 0 (/ 2)) as X. destruct X; [lra| |lra].
  exists 0%Z. replace (0 / (2 * PI / INR 8) - IZR 0) with 0 by (change (IZR 0) with 0; unfold Rdiv; ring). rewrite Rabs_R0. lra.
Qed.
