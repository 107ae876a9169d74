(** Property theorems C24-C27 and C55: from detector records to coefficients. *)
From Coq Require Import Reals ZArith String List Bool Lra Lia Sorted.
From Verif Require Import Base BaseLemmas PyVal Model_Materials Model_EpsGrid Model_Coeffs Spec_Coeffs Proof_Coeffs.
Import ListNotations.
Open Scope R_scope.

(** C24 *)
Theorem C24_normalise : forall t r,
  exists t' r', check_and_normalize (Fin t) (Fin r) = (Fin t', Fin r') /\
    (t + r <= 1 \/ 105/100 <= t + r -> t' = t /\ r' = r) /\
    (1 < t + r < 105/100 -> t' + r' = 1 /\ t' * r = t * r' /\ (0 <= t -> 0 <= r -> 0 <= t' <= t /\ 0 <= r' <= r)) /\
    (0 <= t -> 0 <= r -> t + r < 105/100 -> 0 <= t' /\ 0 <= r' /\ t' + r' <= 1).
Proof. exact normalize_spec. Qed.
Print Assumptions C24_normalise.
Theorem C24_nan_passes : forall t r,
  (t = NaN \/ r = NaN) -> check_and_normalize t r = (t, r).
Proof. exact normalize_nan. Qed.
Print Assumptions C24_nan_passes.
Theorem C24_unphysical_returned_refuted : exists t r, 0 <= t /\ 0 <= r /\ 1 < t + r /\ check_and_normalize (Fin t) (Fin r) = (Fin t, Fin r).
Proof. exact normalize_unphysical_refuted. Qed.
Print Assumptions C24_unphysical_returned_refuted.
Example C24_case : check_and_normalize (Fin (52/100)) (Fin (52/100)) = (Fin (1/2), Fin (1/2)).
Proof. rewrite (proj2 (normalize_cases (52/100) (52/100))) by lra. f_equal; apply f_equal; field. Qed.

(** C25: complete outcome; where the cut is; the steady-state error never fires. *)
Theorem C25_outcome : forall w fs s s',
  (0 < w)%nat -> stripped s s' ->
  (length s' = (2 * w)%nat /\ eliminate_transient w fs s = Err RuntimeError) \/
  (length s' <> (2 * w)%nat /\ exists o, eliminate_transient w fs s = Ok o /\ suffix o s' /\ suffix o s /\
     ((length s' < 2 * w)%nat -> o = s') /\ ((2 * w < length s')%nat -> (w < length o)%nat)).
Proof. exact eliminate_total. Qed.
Print Assumptions C25_outcome.
Theorem C25_short : forall w fs s s',
  stripped s s' -> (length s' < 2 * w)%nat -> eliminate_transient w fs s = Ok s'.
Proof. exact eliminate_short. Qed.
Print Assumptions C25_short.
Theorem C25_cut_position : forall w (fs : bool) s s' m,
  (0 < w)%nat -> stripped s s' -> (2 <= m)%nat -> (m * w < length s' <= S m * w)%nat ->
  exists (ch : nat -> R) (mx : R) (i : nat),
    (forall k, (k < m - 1)%nat -> exists ra rb, is_range (window w m s' k) ra /\ is_range (window w m s' (S k)) rb /\ ch k = Rabs (ra - rb)) /\
    ((exists k, (k < m - 1)%nat /\ mx = ch k) /\ forall k, (k < m - 1)%nat -> ch k <= mx) /\
    (i < m - 1)%nat /\
    ((mx = 0 /\ S (S i) = m) \/
     (0 < mx /\ (if fs then 5/10 else 1/10) * mx <= ch i /\ forall j, (i < j < m - 1)%nat -> ch j < (if fs then 5/10 else 1/10) * mx)) /\
    eliminate_transient w fs s = Ok (skipn (S i * w) s').
Proof. exact eliminate_cut. Qed.
Print Assumptions C25_cut_position.
Theorem C25_two_windows_raise : forall w fs s s',
  (0 < w)%nat -> stripped s s' -> length s' = (2 * w)%nat ->
  eliminate_transient w fs s = Err RuntimeError.
Proof. exact eliminate_two_windows. Qed.
Print Assumptions C25_two_windows_raise.
Theorem C25_window_zero_raises : forall fs s,
  eliminate_transient 0 fs s = Err RuntimeError.
Proof. exact eliminate_window0. Qed.
Print Assumptions C25_window_zero_raises.
Theorem C25_steady_state_error_unreachable : forall w fs s,
  eliminate_transient w fs s <> Err TypeError.
Proof. exact steady_state_error_unreachable. Qed.
Print Assumptions C25_steady_state_error_unreachable.
Example C25_case : stripped wsig wsig /\ (3 * 2 < length wsig <= 4 * 2)%nat /\
  eliminate_transient 2 true wsig = Ok [5; 5; 1; 3; 1; 1] /\ eliminate_transient 2 false wsig = Ok [1; 3; 1; 1].
Proof. split; [apply wsig_stripped|]. split; [simpl; lia|]. split; [apply (wsig_cut true)|apply (wsig_cut false)]. Qed.

(** C26 *)
Theorem C26_peaks : forall s,
  StronglySorted lt (find_peaks s) /\ forall i, In i (find_peaks s) <-> is_peak s i.
Proof. exact find_peaks_spec. Qed.
Print Assumptions C26_peaks.
Example C26_case : is_peak [1; 3; 1; 1] 1 /\ ~ is_peak [1; 3; 3; 1] 1.
Proof. unfold is_peak; simpl. split; [repeat split; try lia; lra|]. intros (_ & _ & _ & H). lra. Qed.

(** C27 *)
Theorem C27_power_between_peaks : forall s a b,
  is_peak s a -> is_peak s b -> (a < b)%nat ->
  (forall i, is_peak s i -> (a <= i <= b)%nat) ->
  signal_power s = Ok (mean_square (firstn (b - a) (skipn a s))) /\ length (firstn (b - a) (skipn a s)) = (b - a)%nat.
Proof. exact power_peaks. Qed.
Print Assumptions C27_power_between_peaks.
Theorem C27_power_few_peaks : forall s,
  s <> [] -> (forall a b, is_peak s a -> is_peak s b -> a = b) ->
  signal_power s = Ok ((Rmaximum s) ^ 2 / 2).
Proof. exact power_few_peaks. Qed.
Print Assumptions C27_power_few_peaks.
Theorem C27_nonnegative : forall tf tm rf tr,
  tf <> [] -> tm <> [] -> rf <> [] -> tr <> [] ->
  exists r t, peak_based tf tm rf tr = Ok (r, t) /\
    match r with Fin x => 0 <= x | NInf => False | _ => True end /\
    match t with Fin x => 0 <= x | NInf => False | _ => True end.
Proof. exact peak_based_nonneg. Qed.
Print Assumptions C27_nonnegative.
Theorem C27_scale_invariant : forall c tf tm rf tr rt,
  0 < c -> peak_based tf tm rf tr = Ok rt ->
  peak_based (scale c tf) (scale c tm) (scale c rf) (scale c tr) = Ok rt.
Proof. exact peak_based_scale. Qed.
Print Assumptions C27_scale_invariant.
Theorem C27_quadratic_in_amplitude : forall k tf tm rf tr r t t0,
  0 < k -> peak_based tf tm rf tr = Ok (r, Fin t) ->
  peak_based tf (scale k tm) rf tr = Ok t0 -> t0 = (r, Fin (k ^ 2 * t)).
Proof. exact peak_based_square. Qed.
Print Assumptions C27_quadratic_in_amplitude.
Theorem C27_identity : forall s rf tr r t p,
  signal_power s = Ok p -> p <> 0 ->
  peak_based s s rf tr = Ok (r, t) -> t = Fin 1.
Proof. exact peak_based_identity. Qed.
Print Assumptions C27_identity.
Theorem C27_dark_free_space : forall w tf tm rf rm,
  length rm = length rf ->
  (mean_square tf <= / 10 ^ 15 \/ mean_square rf <= / 10 ^ 15) ->
  calculate_coefficients w tf tm rf rm = Err ValueError.
Proof. exact dark_freespace. Qed.
Print Assumptions C27_dark_free_space.
Theorem C27_result : forall w tf tm rf rm tf' tm' rf' tr' a b c d,
  length rm = length rf ->
  / 10 ^ 15 < mean_square tf -> / 10 ^ 15 < mean_square rf ->
  eliminate_transient w true tf = Ok tf' -> eliminate_transient w false tm = Ok tm' ->
  eliminate_transient w true rf = Ok rf' -> eliminate_transient w false (map2 Rminus rm rf) = Ok tr' ->
  signal_power tf' = Ok a -> signal_power tm' = Ok b -> signal_power rf' = Ok c -> signal_power tr' = Ok d ->
  calculate_coefficients w tf tm rf rm = Ok (check_and_normalize (tdiv (Fin b) (Fin a)) (tdiv (Fin d) (Fin c))).
Proof. exact calculate_value. Qed.
Print Assumptions C27_result.
(** The same raw signal with and without material does not always give T = 1. *)
Theorem C27_identical_signals_refuted : exists w s, (0 < w)%nat /\
  calculate_coefficients w s s s s = Ok (Fin (9 / 25), Fin 0).
Proof. exact identical_not_one. Qed.
Print Assumptions C27_identical_signals_refuted.
Example C27_peaks_case : let s := [0; 3; 1; 2; 1; 4; 0] in
  is_peak s 1 /\ is_peak s 5 /\ (forall i, is_peak s i -> (1 <= i <= 5)%nat)
  /\ mean_square (firstn (5 - 1) (skipn 1 s)) = 15/4.
Proof.
  cbv zeta. split; [unfold is_peak; simpl; repeat split; try lia; lra|].
  split; [unfold is_peak; simpl; repeat split; try lia; lra|].
  split; [intros i H; unfold is_peak in H; simpl in H; lia|]. unfold mean_square. cbn. lra.
Qed.
Example C27_case : exists r, peak_based [1;3;1;1] [1;3;1;1] [5;5;1;3;1;1] [1;3;1;1] = Ok (r, Fin 1).
Proof.
  unfold peak_based. rewrite power_w4, power_w6. cbn [bind]. eexists. apply f_equal. f_equal.
  rewrite tdiv_Fin by lra. apply f_equal. field.
Qed.

(** C55 *)
Theorem C55_mean : forall rec,
  length (detector_signal rec) = length rec /\
  forall i, (i < length rec)%nat -> nth i (detector_signal rec) 0 =
     Rsum (map (fun v : vec3 => snd v) (nth i rec [])) / INR (length (nth i rec [])).
Proof. exact detector_signal_spec. Qed.
Print Assumptions C55_mean.
Theorem C55_between : forall rec i lo hi,
  (i < length rec)%nat -> nth i rec [] <> [] ->
  (forall v : vec3, In v (nth i rec []) -> lo <= snd v <= hi) -> lo <= nth i (detector_signal rec) 0 <= hi.
Proof. exact detector_signal_between. Qed.
Print Assumptions C55_between.
Theorem C55_linear : forall c (ra rb rc : list (list vec3)),
  length ra = length rc -> length rb = length rc ->
  (forall i, (i < length rc)%nat -> length (nth i ra []) = length (nth i rc []) /\ length (nth i rb []) = length (nth i rc []) /\
     forall j, snd (nth j (nth i rc []) (0,0,0)) = c * snd (nth j (nth i ra []) (0,0,0)) + snd (nth j (nth i rb []) (0,0,0))) ->
  forall i, (i < length rc)%nat -> nth i (detector_signal rc) 0 = c * nth i (detector_signal ra) 0 + nth i (detector_signal rb) 0.
Proof. exact detector_signal_linear. Qed.
Print Assumptions C55_linear.
Example C55_case : detector_signal [[(1,2,3); (4,5,7)]; [(0,0,0); (0,0,1)]] = [5; 1/2].
Proof.
  unfold detector_signal, average_along_detector. simpl. f_equal; [|f_equal]; field.
Qed.
