(** Proofs about pulses. *)
From Coq Require Import Reals ZArith List Bool Lra Lia Psatz.
From Verif Require Import Base BaseLemmas Model_FDTD Model_Waveforms Spec_Waveforms.
Import ListNotations.
Open Scope R_scope.

Lemma Reqb_spec a b : reflect (a = b) (Reqb a b).
Proof. unfold Reqb. destruct (Req_EM_T a b); constructor; assumption. Qed.
Ltac unok H v := apply (f_equal value_of) in H; cbn [value_of] in H; subst v.
Lemma exp_above u : 1 + u <= exp u.
Proof. destruct (Req_dec u 0) as [->|N]; [rewrite exp_0; lra|left; apply exp_ineq1, N]. Qed.
Lemma exp_above_eq u : exp u = 1 + u -> u = 0.
Proof. intros H. destruct (Req_dec u 0) as [E|N]; [exact E|]. pose proof (exp_ineq1 u N). lra. Qed.

Lemma ln2_pos : 0 < ln 2.
Proof. rewrite <- ln_1. apply ln_increasing; lra. Qed.
Lemma const_pos : 0 < fwhm_constant.
Proof. unfold fwhm_constant. pose proof ln2_pos. apply Rmult_lt_0_compat; [lra|]. apply sqrt_lt_R0. lra. Qed.
Lemma const_sq : fwhm_constant ^ 2 = 8 * ln 2.
Proof. unfold fwhm_constant. pose proof ln2_pos. replace ((2 * sqrt (2 * ln 2)) ^ 2) with (4 * (sqrt (2 * ln 2) * sqrt (2 * ln 2))) by ring. rewrite sqrt_sqrt; lra. Qed.
Lemma sigma_nz w : w <> 0 -> w / fwhm_constant <> 0.
Proof. intros H. pose proof const_pos. unfold Rdiv. apply Rmult_integral_contrapositive_currified; [exact H|]. apply Rinv_neq_0_compat. lra. Qed.
Lemma sq_pos x : x <> 0 -> 0 < x ^ 2.
Proof. intros H. rewrite <- Rsqr_pow2. apply Rsqr_pos_lt, H. Qed.
Lemma test_nz w : w <> 0 -> Reqb (2 * (w / fwhm_constant) ^ 2) 0 = false.
Proof. intros H. destruct (Reqb_spec (2 * (w / fwhm_constant) ^ 2) 0) as [E|]; [|reflexivity]. pose proof (sq_pos _ (sigma_nz w H)). lra. Qed.

(** * The Gaussian pulse *)
Lemma pulse_value x w c : w <> 0 -> gaussian_pulse x w c = Ok (exp (- (4 * ln 2 * ((x - c) / w) ^ 2))).
Proof.
  intros H. unfold gaussian_pulse. rewrite (test_nz w H). do 3 f_equal. pose proof const_pos as K. 
  replace ((w / fwhm_constant) ^ 2) with (w ^ 2 / fwhm_constant ^ 2) by (field; lra). rewrite const_sq. pose proof ln2_pos. field. split; [exact H|lra].
Qed.
Lemma pulse_zero_width x w c : gaussian_pulse x w c = Err ZeroDivisionError <-> w = 0.
Proof.
  split.
  - intros H. destruct (Req_dec w 0) as [E|N]; [exact E|]. rewrite (pulse_value x w c N) in H. discriminate.
  - intros ->. unfold gaussian_pulse. destruct (Reqb_spec (2 * (0 / fwhm_constant) ^ 2) 0) as [E|N]; [reflexivity|]. exfalso. apply N. unfold Rdiv. ring.
Qed.
Lemma pulse_range x w c v : gaussian_pulse x w c = Ok v -> 0 < v <= 1 /\ (v = 1 <-> x = c).
Proof.
  intros H. destruct (Req_dec w 0) as [->|N]; [rewrite (proj2 (pulse_zero_width x 0 c) eq_refl) in H; discriminate|].
  rewrite (pulse_value x w c N) in H. unok H v. pose proof ln2_pos as L.
  assert (S : 0 <= 4 * ln 2 * ((x - c) / w) ^ 2) by (apply Rmult_le_pos; [lra|apply pow2_ge_0]).
  split; [split; [apply exp_pos|]|].
  - set (z := 4 * ln 2 * ((x - c) / w) ^ 2) in *. pose proof exp_0 as E0. destruct S as [S|S]; [left; rewrite <- E0; apply exp_increasing; lra|right; rewrite <- S, Ropp_0; exact E0].
  - split.
    + intros E. assert (E' : exp (- (4 * ln 2 * ((x - c) / w) ^ 2)) = exp 0) by (rewrite exp_0; exact E). apply exp_inv in E'. assert (Z : ((x - c) / w) ^ 2 = 0) by nra. 
      destruct (Req_dec ((x - c) / w) 0) as [Q|Q]; [|pose proof (sq_pos _ Q); lra].
      apply Rmult_integral in Q as [Q|Q]; [lra|]. exfalso. exact (Rinv_neq_0_compat w N Q).
    + intros ->. replace (- (4 * ln 2 * ((c - c) / w) ^ 2)) with 0 by (unfold Rdiv; ring). apply exp_0.
Qed.
Lemma pulse_width x w c v : gaussian_pulse x w c = Ok v -> (1 / 2 <= v <-> Rabs (x - c) <= Rabs w / 2).
Proof.
  intros H. destruct (Req_dec w 0) as [->|N]; [rewrite (proj2 (pulse_zero_width x 0 c) eq_refl) in H; discriminate|].
  rewrite (pulse_value x w c N) in H. unok H v. pose proof ln2_pos as L.
  assert (W : 0 < Rabs w) by (apply Rabs_pos_lt, N). set (y := (x - c) / w).
  assert (Y : Rabs y = Rabs (x - c) / Rabs w) by (unfold y, Rdiv; rewrite Rabs_mult, Rabs_inv; reflexivity).
  assert (H2 : 1 / 2 = exp (- ln 2)) by (rewrite exp_Ropp, exp_ln; lra). rewrite H2.
  assert (A : Rabs (x - c) <= Rabs w / 2 <-> Rabs y <= 1 / 2).
  { rewrite Y. split; intros H.
    - apply (Rmult_le_reg_r (Rabs w)); [exact W|]. unfold Rdiv. rewrite Rmult_assoc, Rinv_l by lra. lra.
    - apply (Rmult_le_compat_r (Rabs w)) in H; [|lra]. unfold Rdiv in H at 1. rewrite Rmult_assoc, Rinv_l in H by lra. lra. }
  rewrite A. rewrite <- (pow2_abs y). pose proof (Rabs_pos y) as P. split.
  - intros E. assert (F : - ln 2 <= - (4 * ln 2 * Rabs y ^ 2)).
    { destruct E as [E|E]; [apply exp_lt_inv in E; lra|apply exp_inv in E; lra]. }
    destruct (Rle_lt_dec (Rabs y) (1 / 2)); [assumption|]. exfalso. assert (1 / 4 < Rabs y ^ 2) by nra. nra.
  - intros E. assert (Rabs y ^ 2 <= 1 / 4) by nra. assert (F : - ln 2 <= - (4 * ln 2 * Rabs y ^ 2)) by nra.
    destruct F as [F|F]; [left; apply exp_increasing, F|right; rewrite F; reflexivity].
Qed.
Lemma pulse_symmetric d w c : gaussian_pulse (c + d) w c = gaussian_pulse (c - d) w c.
Proof.
  destruct (Req_dec w 0) as [->|N]; [rewrite !(proj2 (pulse_zero_width _ 0 c) eq_refl); reflexivity|].
  rewrite !pulse_value by exact N. do 4 f_equal. unfold Rdiv. ring.
Qed.
Lemma pulse_falls x x' w c v v' : gaussian_pulse x w c = Ok v -> gaussian_pulse x' w c = Ok v' -> (Rabs (x - c) < Rabs (x' - c) <-> v' < v).
Proof.
  intros H H'. destruct (Req_dec w 0) as [->|N]; [rewrite (proj2 (pulse_zero_width x 0 c) eq_refl) in H; discriminate|].
  rewrite (pulse_value x w c N) in H. rewrite (pulse_value x' w c N) in H'. unok H v. unok H' v'. pose proof ln2_pos as L. pose proof (sq_pos w N) as W.
  assert (K : forall z, 4 * ln 2 * ((z - c) / w) ^ 2 = 4 * ln 2 / w ^ 2 * Rabs (z - c) ^ 2).
  { intros z. rewrite pow2_abs. field. exact N. }
  rewrite !K. set (k := 4 * ln 2 / w ^ 2). assert (KP : 0 < k) by (apply Rdiv_lt_0_compat; lra).
  pose proof (Rabs_pos (x - c)) as P. pose proof (Rabs_pos (x' - c)) as P'. set (a := Rabs (x - c)) in *. set (b := Rabs (x' - c)) in *. split.
  - intros H. apply exp_increasing. assert (a ^ 2 < b ^ 2) by nra. nra.
  - intros H. apply exp_lt_inv in H. assert (a ^ 2 < b ^ 2) by nra. nra.
Qed.

(** * Its derivative *)
Lemma derivative_value x w c : w <> 0 -> let y := (x - c) / (w / fwhm_constant) in
  gaussian_derivative_pulse x w c = Ok (y * exp ((1 - y ^ 2) / 2)).
Proof.
  intros H y. unfold gaussian_derivative_pulse. rewrite (test_nz w H). f_equal. pose proof (sigma_nz w H) as S. unfold y.
  set (s := w / fwhm_constant) in *. replace (1 / 2 - (x - c) ^ 2 / (2 * s ^ 2)) with ((1 - ((x - c) / s) ^ 2) / 2) by (field; exact S). field. exact S.
Qed.
Lemma derivative_zero_width x w c : gaussian_derivative_pulse x w c = Err ZeroDivisionError <-> w = 0.
Proof.
  split.
  - intros H. destruct (Req_dec w 0) as [E|N]; [exact E|]. pose proof (derivative_value x w c N) as V. cbv zeta in V. rewrite V in H. discriminate.
  - intros ->. unfold gaussian_derivative_pulse. destruct (Reqb_spec (2 * (0 / fwhm_constant) ^ 2) 0) as [E|N]; [reflexivity|]. exfalso. apply N. unfold Rdiv. ring.
Qed.
Lemma bell y : Rabs (y * exp ((1 - y ^ 2) / 2)) <= 1 /\ (y * exp ((1 - y ^ 2) / 2) = 1 <-> y = 1) /\ (y * exp ((1 - y ^ 2) / 2) = -1 <-> y = -1).
Proof.
  set (u := (y ^ 2 - 1) / 2). assert (E : exp ((1 - y ^ 2) / 2) = / exp u) by (rewrite <- exp_Ropp; f_equal; unfold u; lra). rewrite E.
  pose proof (exp_pos u) as P. pose proof (exp_above u) as A.
  assert (B : Rabs y <= exp u).
  { apply Rle_trans with (1 + u); [|exact A]. unfold u. rewrite <- (pow2_abs y). pose proof (pow2_ge_0 (Rabs y - 1)). lra. }
  assert (Q : forall s, s = 1 \/ s = -1 -> (y * / exp u = s <-> y = s)).
  { intros s Hs. split.
    - intros H. assert (F : y = s * exp u) by (rewrite <- H; field; lra).
      assert (G : y ^ 2 = exp u ^ 2) by (rewrite F; destruct Hs as [-> | ->]; ring).
      assert (Y : y ^ 2 = 1 + 2 * u) by (unfold u; lra).
      assert (U : u = 0). { apply exp_above_eq. nra. }
      rewrite F, U, exp_0. ring.
    - intros ->. assert (U : u = 0) by (unfold u; destruct Hs as [-> | ->]; lra). rewrite U, exp_0. field. }
  split; [|split; apply Q; auto].
  rewrite Rabs_mult, Rabs_inv, (Rabs_right (exp u)) by lra. apply (Rmult_le_reg_r (exp u)); [exact P|]. rewrite Rmult_assoc, Rinv_l by lra. lra.
Qed.
Lemma derivative_range x w c v : gaussian_derivative_pulse x w c = Ok v ->
  Rabs v <= 1 /\ (v = 1 <-> x = c + w / fwhm_constant) /\ (v = -1 <-> x = c - w / fwhm_constant).
Proof.
  intros H. destruct (Req_dec w 0) as [->|N]; [rewrite (proj2 (derivative_zero_width x 0 c) eq_refl) in H; discriminate|].
  pose proof (derivative_value x w c N) as V1. cbv zeta in V1. rewrite V1 in H. unok H v. pose proof (sigma_nz w N) as S. set (s := w / fwhm_constant) in *.
  destruct (bell ((x - c) / s)) as (B1 & B2 & B3). split; [exact B1|].
  assert (K : forall k, (x - c) / s = k <-> x = c + k * s).
  { intros k. split; [intros <-; field; exact S|intros ->; field; exact S]. }
  rewrite B2, B3, !K. split; split; intros ->; ring.
Qed.
Lemma derivative_odd d w c v : gaussian_derivative_pulse (c + d) w c = Ok v -> gaussian_derivative_pulse (c - d) w c = Ok (- v).
Proof.
  intros H. destruct (Req_dec w 0) as [->|N]; [rewrite (proj2 (derivative_zero_width _ 0 c) eq_refl) in H; discriminate|].
  pose proof (derivative_value (c + d) w c N) as V1. pose proof (derivative_value (c - d) w c N) as V2. cbv zeta in V1, V2. rewrite V1 in H. rewrite V2. unok H v. pose proof (sigma_nz w N) as S. set (s := w / fwhm_constant) in *.
  replace ((c - d - c) / s) with (- ((c + d - c) / s)) by (field; exact S). set (y := (c + d - c) / s). replace ((- y) ^ 2) with (y ^ 2) by ring. f_equal. ring.
Qed.
Lemma derivative_is x w c : w <> 0 ->
  derivable_pt_lim (fun t => value_of (gaussian_pulse t w c)) x
    (- (exp (- (1 / 2)) / (w / fwhm_constant)) * value_of (gaussian_derivative_pulse x w c)).
Proof.
  intros N. pose proof (sigma_nz w N) as S.
  assert (EX : forall t, value_of (gaussian_pulse t w c) = exp (- ((t - c) ^ 2 / (2 * (w / fwhm_constant) ^ 2)))) by (intros t; unfold gaussian_pulse; rewrite (test_nz w N); reflexivity).
  assert (DV : value_of (gaussian_derivative_pulse x w c) = exp (1 / 2 - (x - c) ^ 2 / (2 * (w / fwhm_constant) ^ 2)) * (x - c) / (w / fwhm_constant)) by (unfold gaussian_derivative_pulse; rewrite (test_nz w N); reflexivity).
  rewrite DV. set (s := w / fwhm_constant) in *.
  assert (D : derivable_pt_lim (fun t => exp (- ((t - c) ^ 2 / (2 * s ^ 2)))) x (exp (- ((x - c) ^ 2 / (2 * s ^ 2))) * (- (x - c) / s ^ 2))).
  { apply (derivable_pt_lim_comp (fun t => - ((t - c) ^ 2 / (2 * s ^ 2))) exp x).
    - assert (D2 : derivable_pt_lim (fun t => (- / (2 * s ^ 2)) * ((t - c) * (t - c))) x ((- / (2 * s ^ 2)) * ((1 - 0) * (x - c) + (x - c) * (1 - 0)))).
      { apply (derivable_pt_lim_scal (fun t => (t - c) * (t - c)) (- / (2 * s ^ 2)) x).
        apply (derivable_pt_lim_mult (fun t => t - c) (fun t => t - c) x); apply (derivable_pt_lim_minus (fun t => t) (fun _ => c) x); try apply derivable_pt_lim_id; apply derivable_pt_lim_const. }
      replace ((- / (2 * s ^ 2)) * ((1 - 0) * (x - c) + (x - c) * (1 - 0))) with (- (x - c) / s ^ 2) in D2 by (field; exact S).
      intros e He. destruct (D2 e He) as [d Hd]. exists d. intros h Hh Hlt. specialize (Hd h Hh Hlt).
      replace (- ((x + h - c) ^ 2 / (2 * s ^ 2))) with (- / (2 * s ^ 2) * ((x + h - c) * (x + h - c))) by (field; exact S).
      replace (- ((x - c) ^ 2 / (2 * s ^ 2))) with (- / (2 * s ^ 2) * ((x - c) * (x - c))) by (field; exact S). exact Hd.
    - apply derivable_pt_lim_exp. }
  replace (- (exp (- (1 / 2)) / s) * (exp (1 / 2 - (x - c) ^ 2 / (2 * s ^ 2)) * (x - c) / s))
    with (exp (- ((x - c) ^ 2 / (2 * s ^ 2))) * (- (x - c) / s ^ 2)).
  - intros e He. destruct (D e He) as [d Hd]. exists d. intros h Hh Hlt. rewrite !EX. exact (Hd h Hh Hlt).
  - replace (exp (- ((x - c) ^ 2 / (2 * s ^ 2)))) with (exp (- (1 / 2)) * exp (1 / 2 - (x - c) ^ 2 / (2 * s ^ 2))); [field; exact S|].
    rewrite <- exp_plus. f_equal. field. exact S.
Qed.

(** * The signals of point and line sources *)
Lemma hanning_bound f t n : Rabs (hanning f t n) <= 1.
Proof.
  unfold hanning. rewrite Rabs_mult. pose proof (COS_bound (f * t / n)) as [C1 C2]. pose proof (SIN_bound (f * t)) as [S1 S2].
  assert (A : Rabs (1 / 2 * (1 - cos (f * t / n))) <= 1) by (apply Rabs_le; lra). assert (B : Rabs (sin (f * t)) <= 1) by (apply Rabs_le; lra).
  pose proof (Rabs_pos (1 / 2 * (1 - cos (f * t / n)))). pose proof (Rabs_pos (sin (f * t))). nra.
Qed.
Lemma ricker_range q gpw offset courant : - (2 * exp (- (3 / 2))) <= ricker q gpw offset courant <= 1
  /\ (ricker q gpw offset courant = 1 <-> q * courant / gpw = offset).
Proof.
  unfold ricker. set (v := (PI * (q * courant / gpw - offset)) ^ 2). assert (V : 0 <= v) by apply pow2_ge_0.
  pose proof (exp_pos (- v)) as P. pose proof PI_RGT_0 as PI0. split; [split|].
  - assert (A : exp (- (3 / 2)) = exp (- v) * exp (v - 3 / 2)) by (rewrite <- exp_plus; f_equal; lra). rewrite A.
    pose proof (exp_above (v - 3 / 2)) as B. nra.
  - assert (A : 1 = exp (- v) * exp v) by (rewrite <- exp_plus, <- exp_0; f_equal; lra). pose proof (exp_above v) as B. nra.
  - split.
    + intros H. assert (A : 1 = exp (- v) * exp v) by (rewrite <- exp_plus, <- exp_0; f_equal; lra). pose proof (exp_above v) as B.
      assert (Z : v = 0) by nra. unfold v in Z. destruct (Req_dec (PI * (q * courant / gpw - offset)) 0) as [Q|Q]; [|pose proof (sq_pos _ Q); lra].
      apply Rmult_integral in Q as [Q|Q]; lra.
    + intros H. assert (Z : v = 0) by (unfold v; rewrite H; ring). rewrite Z, Ropp_0, exp_0. ring.
Qed.
Lemma two_over_e : 2 * exp (- (3 / 2)) < 1.
Proof.
  pose proof (exp_above (3 / 2)) as A. rewrite exp_Ropp. pose proof (exp_pos (3 / 2)). apply (Rmult_lt_reg_r (exp (3 / 2))); [assumption|].
  rewrite Rmult_assoc, Rinv_l; lra.
Qed.
Lemma line_bound s q f : line_factor s q = Ok f -> Rabs f <= 1.
Proof.
  destruct s as [period phase|fr dt cy|gpw courant]; cbn [line_factor].
  - destruct (period =? 0)%Z; [discriminate|]. intros H; inversion H. pose proof (SIN_bound (2 * PI * INR q / IZR period + phase)). apply Rabs_le. lra.
  - destruct (_ || _); [discriminate|]. destruct (_ <? _)%Z; intros H; inversion H; [apply hanning_bound|rewrite Rabs_R0; lra].
  - destruct (Rltb _ _); intros H; inversion H; [|rewrite Rabs_R0; lra]. destruct (ricker_range (INR q) gpw 1 courant) as [[L U] _]. pose proof two_over_e. apply Rabs_le. lra.
Qed.
Lemma point_bound amp s q v : point_value amp s q = Ok v -> Rabs v <= Rabs amp.
Proof.
  assert (K : forall f, Rabs f <= 1 -> Rabs (amp * f) <= Rabs amp).
  { intros f F. rewrite Rabs_mult. pose proof (Rabs_pos amp). pose proof (Rabs_pos f). nra. }
  destruct s as [period phase|fr dt cy|gpw courant]; cbn [point_value].
  - destruct (period =? 0)%Z; [discriminate|]. intros H; inversion H. apply K. pose proof (SIN_bound (2 * PI * INR q / IZR period + phase)). apply Rabs_le. lra.
  - destruct (_ || _); [discriminate|]. destruct (_ <? _)%Z; intros H; inversion H; [apply K, hanning_bound|rewrite Rabs_R0; apply Rabs_pos].
  - destruct (Rltb _ _); [discriminate|]. intros H; inversion H. apply K. rewrite Rabs_R0. lra.
Qed.
