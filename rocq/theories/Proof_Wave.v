From Coq Require Import Reals ZArith List Bool Lra Lia FunctionalExtensionality.
From Verif Require Import Base BaseLemmas Model_FDTD Spec_FDTD Spec_Wave.
Import ListNotations.
Open Scope R_scope.

Lemma cos_diff m x : cos (m + x) - cos (m - x) = - 2 * sin m * sin x.
Proof. rewrite cos_plus, cos_minus. ring. Qed.

Lemma coord_setc b b' v p : coord b (setc b' v p) = if axis_eqb b b' then v else coord b p.
Proof. destruct p as [[i j] l], b, b'; reflexivity. Qed.

(** the middle of a difference of magnetic components is where the electric one is *)
Lemma H_shift (k : axis -> R) p b c d : b <> d -> c <> b -> c <> d -> (1 <= coord b p)%nat ->
  phase k (H_place p c) = phase k (E_place p d) + k b / 2
  /\ phase k (H_place (setc b (coord b p - 1) p) c) = phase k (E_place p d) - k b / 2.
Proof.
  intros H1 H2 H3 H. assert (M : INR (coord b p - 1) = INR (coord b p) - 1) by (rewrite minus_INR by exact H; reflexivity).
  unfold phase, sum3, H_place, E_place. rewrite !coord_setc.
  destruct b, c, d; try congruence; cbn [axis_eqb]; rewrite ?M; split; field.
Qed.
Lemma H_shift0 (k : axis -> R) p b c d : b <> d -> c <> b -> c <> d -> k b = 0 ->
  phase k (H_place p c) = phase k (E_place p d) /\ phase k (H_place (setc b (coord b p - 1) p) c) = phase k (E_place p d).
Proof.
  intros H1 H2 H3 H. unfold phase, sum3, H_place, E_place. rewrite !coord_setc.
  destruct b, c, d; try congruence; cbn [axis_eqb]; rewrite ?H; split; ring.
Qed.
Lemma E_shift (k : axis -> R) p b c d : b <> d -> c <> b -> c <> d ->
  phase k (E_place p c) = phase k (H_place p d) - k b / 2
  /\ phase k (E_place (setc b (S (coord b p)) p) c) = phase k (H_place p d) + k b / 2.
Proof.
  intros H1 H2 H3. unfold phase, sum3, H_place, E_place. rewrite !coord_setc.
  destruct b, c, d; try congruence; cbn [axis_eqb]; rewrite ?S_INR; split; field.
Qed.

Section Wave.
  Variables (k : axis -> R) (w phi eps mu C : R) (e h : axis -> R) (N : shape3).
  Let S0 := sin (w / 2).
  Let K := grid_vector k.
  Hypothesis HE : forall c, S0 * e c = - (C * (1 / eps)) * cross K h c.
  Hypothesis HH : forall c, S0 * h c = (C * (1 / mu)) * cross K e c.

  (** where the fields are the wave's *)
  Definition E_at (n : nat) (E : field) : Prop := forall p c, in_grid N p -> (forall b, k b = 0 \/ (n <= coord b p)%nat /\ (coord b p + n <= N b)%nat) -> E p c = E_wave k w phi e n p c.
  Definition H_at (n : nat) (H : field) : Prop := forall p c, in_grid N p -> (forall b, k b = 0 \/ (n <= coord b p)%nat /\ (coord b p + n < N b)%nat) -> H p c = H_wave k w phi h n p c.

  Lemma dbwd_wave n H p b c d : H_at n H -> in_grid N p -> (forall b, k b = 0 \/ (S n <= coord b p)%nat /\ (coord b p + S n <= N b)%nat) -> b <> d -> c <> b -> c <> d ->
    dbwd H b c p = - 2 * h c * K b * sin (phase k (E_place p d) - w * (INR n + / 2) + phi).
  Proof.
    intros HA G Dp H1 H2 H3. unfold dbwd. set (m := phase k (E_place p d) - w * (INR n + / 2) + phi).
    assert (HP : H p c = H_wave k w phi h n p c) by (apply HA; [exact G|]; intros x; destruct (Dp x) as [Z|Z]; [left; exact Z|right; lia]).
    destruct (Nat.leb_spec 1 (coord b p)) as [L|L].
    - assert (HQ : H (setc b (coord b p - 1) p) c = H_wave k w phi h n (setc b (coord b p - 1) p) c).
      { apply HA.
        - intros x. rewrite coord_setc. destruct (axis_eqb x b) eqn:Ex; [|apply G]. specialize (G b). destruct x, b; try discriminate; lia.
        - intros x. destruct (Dp x) as [Z|Z]; [left; exact Z|]. rewrite coord_setc. destruct (axis_eqb x b) eqn:Ex; [|right; lia].
          replace x with b in * by (destruct x, b; try discriminate; reflexivity). right. lia. }
      rewrite HP, HQ. unfold H_wave. destruct (H_shift k p b c d H1 H2 H3 L) as [-> ->].
      replace (phase k (E_place p d) + k b / 2 - w * (INR n + / 2) + phi) with (m + k b / 2) by (unfold m; ring).
      replace (phase k (E_place p d) - k b / 2 - w * (INR n + / 2) + phi) with (m - k b / 2) by (unfold m; ring).
      rewrite <- Rmult_minus_distr_l, cos_diff. unfold K, grid_vector. ring.
    - destruct (Dp b) as [Z|Z]; [|lia]. unfold K, grid_vector. rewrite Z. replace (0 / 2) with 0 by field. rewrite sin_0. ring.
  Qed.

  Lemma dfwd_wave n E p b c d : E_at n E -> in_grid N p -> (forall b, k b = 0 \/ (n <= coord b p)%nat /\ (coord b p + n < N b)%nat) -> b <> d -> c <> b -> c <> d -> (1 <= n)%nat ->
    dfwd N E b c p = - 2 * e c * K b * sin (phase k (H_place p d) - w * INR n + phi).
  Proof.
    intros HA G Dp H1 H2 H3 Hn. unfold dfwd. set (m := phase k (H_place p d) - w * INR n + phi).
    assert (HP : E p c = E_wave k w phi e n p c) by (apply HA; [exact G|]; intros x; destruct (Dp x) as [Z|Z]; [left; exact Z|right; lia]).
    destruct (Nat.ltb_spec (S (coord b p)) (N b)) as [L|L].
    - assert (HQ : E (setc b (S (coord b p)) p) c = E_wave k w phi e n (setc b (S (coord b p)) p) c).
      { apply HA.
        - intros x. rewrite coord_setc. destruct (axis_eqb x b) eqn:Ex; [|apply G]. replace x with b in * by (destruct x, b; try discriminate; reflexivity). exact L.
        - intros x. destruct (Dp x) as [Z|Z]; [left; exact Z|]. rewrite coord_setc. destruct (axis_eqb x b) eqn:Ex; [|right; lia].
          replace x with b in * by (destruct x, b; try discriminate; reflexivity). right. lia. }
      rewrite HP, HQ. unfold E_wave. destruct (E_shift k p b c d H1 H2 H3) as [-> ->].
      replace (phase k (H_place p d) + k b / 2 - w * INR n + phi) with (m + k b / 2) by (unfold m; ring).
      replace (phase k (H_place p d) - k b / 2 - w * INR n + phi) with (m - k b / 2) by (unfold m; ring).
      rewrite <- Rmult_minus_distr_l, cos_diff. unfold K, grid_vector. ring.
    - destruct (Dp b) as [Z|Z]; [|lia]. unfold K, grid_vector. rewrite Z. replace (0 / 2) with 0 by field. rewrite sin_0. ring.
  Qed.

  Lemma E_next n E H : E_at n E -> H_at n H -> E_at (S n) (fun p c => E p c * ((1 - 0) / (1 + 0)) + C * (1 / eps) * curl_H H p c / (1 + 0)).
  Proof.
    intros HA HB p c G Dp. assert (EP : E p c = E_wave k w phi e n p c) by (apply HA; [exact G|]; intros x; destruct (Dp x) as [Z|Z]; [left; exact Z|right; lia]).
    rewrite EP. unfold E_wave. rewrite S_INR. set (m := phase k (E_place p c) - w * (INR n + / 2) + phi).
    replace (phase k (E_place p c) - w * INR n + phi) with (m + w / 2) by (unfold m; field).
    replace (phase k (E_place p c) - w * (INR n + 1) + phi) with (m - w / 2) by (unfold m; field).
    assert (CU : curl_H H p c = - 2 * sin m * cross K h c).
    { unfold curl_H, cross, m. destruct c.
      - rewrite (dbwd_wave n H p AY AZ AX), (dbwd_wave n H p AZ AY AX); try assumption; try discriminate. ring.
      - rewrite (dbwd_wave n H p AZ AX AY), (dbwd_wave n H p AX AZ AY); try assumption; try discriminate. ring.
      - rewrite (dbwd_wave n H p AX AY AZ), (dbwd_wave n H p AY AX AZ); try assumption; try discriminate. ring. }
    rewrite CU. pose proof (cos_diff m (w / 2)) as CD. pose proof (HE c) as X. fold S0 in CD.
    assert (One : forall x, x / (1 + 0) = x) by (intros x; field). rewrite One, Rminus_0_r. replace (1 / (1 + 0)) with 1 by field.
    replace (C * (1 / eps) * (- 2 * sin m * cross K h c)) with (2 * sin m * (- (C * (1 / eps)) * cross K h c)) by ring.
    rewrite <- X. replace (2 * sin m * (S0 * e c)) with (- (e c) * (- 2 * sin m * S0)) by ring. rewrite <- CD. field.
  Qed.

  Lemma H_next n E H : E_at (S n) E -> H_at n H -> H_at (S n) (fun p c => H p c - C * (1 / mu) * curl_E N E p c).
  Proof.
    intros HA HB p c G Dp. assert (HP : H p c = H_wave k w phi h n p c) by (apply HB; [exact G|]; intros x; destruct (Dp x) as [Z|Z]; [left; exact Z|right; lia]).
    rewrite HP. unfold H_wave. set (m := phase k (H_place p c) - w * INR (S n) + phi).
    replace (phase k (H_place p c) - w * (INR n + / 2) + phi) with (m + w / 2) by (unfold m; rewrite S_INR; field).
    replace (phase k (H_place p c) - w * (INR (S n) + / 2) + phi) with (m - w / 2) by (unfold m; rewrite S_INR; field).
    assert (CU : curl_E N E p c = - 2 * sin m * cross K e c).
    { unfold curl_E, cross, m. assert (1 <= S n)%nat by lia. destruct c.
      - rewrite (dfwd_wave (S n) E p AY AZ AX), (dfwd_wave (S n) E p AZ AY AX); try assumption; try discriminate. ring.
      - rewrite (dfwd_wave (S n) E p AZ AX AY), (dfwd_wave (S n) E p AX AZ AY); try assumption; try discriminate. ring.
      - rewrite (dfwd_wave (S n) E p AX AY AZ), (dfwd_wave (S n) E p AY AX AZ); try assumption; try discriminate. ring. }
    rewrite CU. pose proof (cos_diff m (w / 2)) as CD. pose proof (HH c) as X. fold S0 in CD.
    replace (C * (1 / mu) * (- 2 * sin m * cross K e c)) with (- 2 * sin m * (C * (1 / mu) * cross K e c)) by ring.
    rewrite <- X. replace (- 2 * sin m * (S0 * h c)) with (h c * (- 2 * sin m * S0)) by ring. rewrite <- CD. ring.
  Qed.
End Wave.

Section Run.
  Variables (k : axis -> R) (w phi eps mu : R) (e h : axis -> R).
  Hypothesis S0 : sin (w / 2) <> 0.

  Lemma step_wave g g' : bare g eps mu -> step g = Ok g' ->
    (forall c, sin (w / 2) * e c = - (g_courant g * (1 / eps)) * cross (grid_vector k) h c) ->
    (forall c, sin (w / 2) * h c = g_courant g * (1 / mu) * cross (grid_vector k) e c) ->
    forall n, E_at k w phi e (g_N g) n (g_E g) -> H_at k w phi h (g_N g) n (g_H g) ->
    bare g' eps mu /\ g_courant g' = g_courant g /\ g_N g' = g_N g
    /\ E_at k w phi e (g_N g) (S n) (g_E g') /\ H_at k w phi h (g_N g) (S n) (g_H g').
  Proof.
    intros (B1 & B2 & B3 & B4 & B5) St HE HH n EA HA. unfold step in St.
    destruct (update_E g) as [g1|] eqn:U1; [|discriminate]. cbn [bind] in St. destruct (update_H g1) as [g2|] eqn:U2; [|discriminate]. cbn [bind] in St. injection St as <-.
    unfold update_E in U1. rewrite B1, B2 in U1. cbn [map_res fold_left fold_res bind] in U1.
    destruct (map_res _ (g_detectors g)) as [ds|]; [|discriminate]. cbn [bind] in U1. injection U1 as <-.
    unfold update_H in U2. cbn [with_fields g_boundaries g_sources g_N g_E g_H g_steps g_detectors map_res fold_left fold_res bind] in U2. rewrite B2 in U2. cbn [fold_res bind] in U2.
    destruct (map_res _ ds) as [ds'|]; [|discriminate]. cbn [bind] in U2. injection U2 as <-.
    cbn [with_fields g_boundaries g_sources g_N g_E g_H g_steps g_detectors g_abs g_ie g_im g_courant].
    assert (E1 : E_at k w phi e (g_N g) (S n) (bulk_E g)).
    { replace (bulk_E g) with (fun p c => g_E g p c * ((1 - 0) / (1 + 0)) + g_courant g * (1 / eps) * curl_H (g_H g) p c / (1 + 0)).
      - apply (E_next k w phi eps (g_courant g) e h); assumption.
      - unfold bulk_E. rewrite B3, B4. reflexivity. }
    split; [repeat split; assumption|]. split; [reflexivity|]. split; [reflexivity|]. split; [exact E1|].
    unfold bulk_H. cbn [with_fields g_H g_courant g_im g_N g_E]. rewrite B5. apply (H_next k w phi mu (g_courant g) e h); assumption.
  Qed.

  Lemma run_wave n : forall m g g', bare g eps mu -> run_steps n g = Ok g' ->
    (forall c, sin (w / 2) * e c = - (g_courant g * (1 / eps)) * cross (grid_vector k) h c) ->
    (forall c, sin (w / 2) * h c = g_courant g * (1 / mu) * cross (grid_vector k) e c) ->
    E_at k w phi e (g_N g) m (g_E g) -> H_at k w phi h (g_N g) m (g_H g) ->
    E_at k w phi e (g_N g) (n + m) (g_E g') /\ H_at k w phi h (g_N g) (n + m) (g_H g').
  Proof.
    induction n as [|n IH]; intros m g g' B Rn HE HH EA HA; cbn [run_steps] in Rn.
    - injection Rn as <-. split; assumption.
    - destruct (step g) as [g1|] eqn:St; [|discriminate]. cbn [bind] in Rn.
      destruct (step_wave g g1 B St HE HH m EA HA) as (B' & C' & N' & EA' & HA'). rewrite <- N' in EA', HA'.
      replace (S n + m)%nat with (n + S m)%nat by lia. rewrite <- N'. apply (IH (S m) g1 g'); try assumption; rewrite C'; assumption.
  Qed.
End Run.

Lemma cross_cross K e c : cross K (cross K e) c = K c * dot K e - dot K K * e c.
Proof. unfold cross, dot, sum3. destruct c; ring. Qed.
Lemma cross_scale K x e c : cross K (fun c => x * e c) c = x * cross K e c.
Proof. unfold cross. destruct c; ring. Qed.

(** transversal waves that obey the dispersion relation *)
Lemma plane_wave k w phi eps mu e n g g' : bare g eps mu -> 0 < eps -> 0 < mu -> sin (w / 2) <> 0 ->
  dot (grid_vector k) e = 0 -> sin (w / 2) ^ 2 = g_courant g ^ 2 / (eps * mu) * dot (grid_vector k) (grid_vector k) ->
  let h := fun c => g_courant g / (mu * sin (w / 2)) * cross (grid_vector k) e c in
  (forall p c, in_grid (g_N g) p -> g_E g p c = E_wave k w phi e 0 p c /\ g_H g p c = H_wave k w phi h 0 p c) ->
  run_steps n g = Ok g' ->
  forall p c, deep k (g_N g) n p -> g_E g' p c = E_wave k w phi e n p c /\ g_H g' p c = H_wave k w phi h n p c.
Proof.
  intros B He Hm S0 T DR h I Rn p c [G Dp].
  assert (X : forall c, sin (w / 2) * h c = g_courant g * (1 / mu) * cross (grid_vector k) e c) by (intros x; unfold h; field; split; [lra|exact S0]).
  assert (Y : forall c, sin (w / 2) * e c = - (g_courant g * (1 / eps)) * cross (grid_vector k) h c).
  { intros x. unfold h. rewrite cross_scale, cross_cross, T. apply Rmult_eq_reg_l with (sin (w / 2)); [|exact S0].
    rewrite <- Rmult_assoc. replace (sin (w / 2) * sin (w / 2)) with (sin (w / 2) ^ 2) by ring. rewrite DR. field; repeat split; try lra; exact S0. }
  destruct (run_wave k w phi eps mu e h n 0 g g' B Rn Y X) as [R1 R2].
  - intros q d Gq _. apply I, Gq.
  - intros q d Gq _. apply I, Gq.
  - rewrite Nat.add_0_r in R1, R2. split; [apply R1|apply R2]; try exact G; [|exact Dp]. intros b. destruct (Dp b) as [Z|Z]; [left; exact Z|right; lia].
Qed.
