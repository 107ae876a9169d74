From Coq Require Import Reals ZArith List Bool Lra Lia Psatz.
From Verif Require Import Base BaseLemmas PyVal Cplx CplxLemmas Model_Materials Model_EpsGrid Model_Coeffs Spec_Coeffs Proof_EpsGrid Proof_Coeffs Spec_Steady Proof_Steady Proof_Steady2.
Import ListNotations.
Open Scope R_scope.

(** * Complex amplitudes *)
Lemma polar z : exists ph, forall th, Re (z * Cis (- th))%C = sqrt (Cnorm2 z) * cos (th + ph).
Proof.
  destruct z as [x y]. unfold Cnorm2, Cmul, Cis, Re, Im. cbn [fst snd].
  set (m := sqrt (x * x + y * y)). assert (M2 : m * m = x * x + y * y) by (apply sqrt_sqrt; nra). assert (M0 : 0 <= m) by apply sqrt_pos.
  destruct (Req_dec m 0) as [Z|Z].
  - exists 0. intros th. rewrite Z in *. assert (x = 0) by nra. assert (y = 0) by nra. subst. ring.
  - assert (Hm : 0 < m) by lra. assert (S1 : (x / m) * (x / m) + (y / m) * (y / m) = 1) by (field_simplify_eq; [nra|lra]).
    assert (Bx : -1 <= x / m <= 1) by nra.
    assert (Sy : sqrt (1 - (x / m)²) = Rabs (y / m)) by (rewrite <- sqrt_Rsqr_abs; f_equal; unfold Rsqr; lra).
    destruct (Rle_lt_dec 0 y) as [Y|Y].
    + exists (- acos (x / m)). intros th. rewrite cos_plus, cos_neg, sin_neg, cos_neg, sin_neg, cos_acos, sin_acos, Sy by exact Bx.
      rewrite Rabs_right by (apply Rle_ge; unfold Rdiv; apply Rmult_le_pos; [lra|left; apply Rinv_0_lt_compat; lra]). field. lra.
    + exists (acos (x / m)). intros th. rewrite cos_plus, !cos_neg, !sin_neg, cos_acos, sin_acos, Sy by exact Bx.
      rewrite Rabs_left; [field; lra|]. unfold Rdiv. assert (0 < / m) by (apply Rinv_0_lt_compat; lra). nra.
Qed.

Lemma suffix_nth {X} (o s : list X) d n : suffix o s -> (n < length o)%nat -> nth n o d = nth (length s - length o + n) s d.
Proof. intros [p ->] H. rewrite app_length, app_nth2 by lia. f_equal. lia. Qed.

Lemma kept_suffix w fs s o : eliminate_transient w fs s = Ok o -> suffix o s.
Proof.
  intros E. destruct w as [|w]; [rewrite eliminate_window0 in E; discriminate|].
  destruct (eliminate_total (S w) fs s _ ltac:(lia) (strip_spec s)) as [[_ E']|(_ & o' & E' & _ & S & _)]; rewrite E' in E; [discriminate|].
  injection E as <-. exact S.
Qed.

(** The part of a recorded signal that is kept is an oscillation if the signal has settled
    before that part. *)
Lemma kept err n0 P z w fs s o : (0 < P)%nat -> detected err n0 P z s -> eliminate_transient w fs s = Ok o -> (n0 + length o <= length s)%nat ->
  exists ph, near_steady err P (sqrt (Cnorm2 z)) ph o.
Proof.
  intros HP D E L. pose proof (kept_suffix _ _ _ _ E) as S. destruct (polar z) as [ph Hp].
  exists (2 * PI / INR P * INR (length s - length o + 1) + ph). intros n Hn. rewrite (suffix_nth o s 0 n S Hn).
  pose proof (D (length s - length o + n)%nat ltac:(lia)) as Q. rewrite Hp in Q.
  replace (2 * PI * INR n / INR P + (2 * PI / INR P * INR (length s - length o + 1) + ph)) with (2 * PI / INR P * INR (Datatypes.S (length s - length o + n)) + ph); [exact Q|].
  rewrite S_INR, !plus_INR. simpl (INR 1). field. apply not_0_INR. lia.
Qed.

Lemma detected_minus e1 e2 n0 P z1 z2 s1 s2 : length s1 = length s2 -> detected e1 n0 P z1 s1 -> detected e2 n0 P z2 s2 ->
  detected (e1 + e2) n0 P (z1 - z2)%C (map2 Rminus s1 s2).
Proof.
  intros L D1 D2 n Hn. rewrite map2_len in Hn. rewrite map2_nth by lia. specialize (D1 n ltac:(lia)). specialize (D2 n ltac:(lia)).
  set (c := Cis _) in *. replace (Re ((z1 - z2) * c)%C) with (Re (z1 * c)%C - Re (z2 * c)%C) by (destruct z1, z2, c; unfold Csub, Cmul, Re, Im; cbn [fst snd]; ring).
  replace (nth n s1 0 - nth n s2 0 - (Re (z1 * c)%C - Re (z2 * c)%C)) with ((nth n s1 0 - Re (z1 * c)%C) - (nth n s2 0 - Re (z2 * c)%C)) by ring.
  unfold Rminus at 1. eapply Rle_trans; [apply Rabs_triang|]. rewrite Rabs_Ropp. lra.
Qed.

(** * Powers *)
Lemma small_power err s : s <> [] -> (forall x, In x s -> Rabs x <= err) -> exists p, signal_power s = Ok p /\ 0 <= p <= err * err.
Proof.
  intros Hs H. assert (E0 : 0 <= err). { destruct s as [|x s]; [contradiction|]. pose proof (H x (or_introl eq_refl)). pose proof (Rabs_pos x). lra. }
  assert (Sq : forall x, In x s -> x * x <= err * err). { intros x Hx. pose proof (Rabs_le_inv2 _ _ (H x Hx)). nra. }
  assert (Ms : forall l, l <> [] -> (forall x, In x l -> In x s) -> mean_square l <= err * err).
  { intros l Hl Hi. unfold mean_square. assert (0 < INR (length l)) by (apply lt_0_INR; destruct l; [contradiction|cbn; lia]).
    apply Rmult_le_reg_r with (INR (length l)); [assumption|]. unfold Rdiv. rewrite Rmult_assoc, Rinv_l by lra. rewrite Rmult_1_r.
    assert (G : forall m, (forall x, In x m -> x * x <= err * err) -> Rsum (map (fun x => x * x) m) <= err * err * INR (length m)).
    { induction m as [|x m IH]; intros Hm; [unfold Rsum; cbn; lra|]. cbn [map length]. rewrite S_INR. change (Rsum (?u :: ?v)) with (u + Rsum v). specialize (IH (fun y Hy => Hm y (or_intror Hy))). pose proof (Hm x (or_introl eq_refl)). lra. }
    apply G. intros x Hx. apply Sq, Hi, Hx. }
  destruct (signal_power_ok s Hs) as (p & E & P0). exists p. split; [exact E|]. split; [exact P0|]. unfold signal_power in E.
  assert (Mx : Rmaximum s ^ 2 / 2 <= err * err).
  { destruct (Rmaximum_spec s Hs) as [M _]. pose proof (Sq _ M). nra. }
  destruct (find_peaks_spec s) as [So In_]. destruct (find_peaks s) as [|p0 [|p1 r]] eqn:F.
  - destruct s; [contradiction|]. injection E as <-. exact Mx.
  - destruct s; [contradiction|]. injection E as <-. exact Mx.
  - injection E as <-. change (match r with [] => p1 | _ :: _ => last r 0%nat end) with (last (p1 :: r) 0%nat) in *. destruct (sorted_last _ _ _ So) as [Lt Li]. set (q := last (p1 :: r) 0%nat) in *. pose proof (proj1 (In_ _) (or_intror Li)) as (_ & Lb & _). apply Ms.
    + intros Z. apply (f_equal (@length R)) in Z. rewrite firstn_length, skipn_length in Z. change (length (@nil R)) with 0%nat in Z. lia.
    + intros x Hx. rewrite <- (firstn_skipn p0 s). apply in_or_app. right. rewrite <- (firstn_skipn (q - p0) (skipn p0 s)). apply in_or_app. left. exact Hx.
Qed.

Lemma settled_power w fs err P a s : (3 <= P)%nat -> 0 <= a -> settles w fs err P a s ->
  exists o p, eliminate_transient w fs s = Ok o /\ signal_power o = Ok p /\ power_near err a p.
Proof.
  intros HP A (o & ph & E & No & N & [Z|(L & eta & He & Hc & Hm)]).
  - subst a. destruct (small_power err o No) as (p & Ep & Bp).
    { intros x Hx. destruct (In_nth o x 0 Hx) as (n & Hn & <-). specialize (N n Hn). rewrite Rmult_0_l, Rminus_0_r in N. exact N. }
    exists o, p. split; [exact E|]. split; [exact Ep|]. unfold power_near. apply Rabs_le. nra.
  - assert (E0 : 0 <= err). { specialize (N 0%nat ltac:(lia)). pose proof (Rabs_pos (nth 0 o 0 - a * cos (2 * PI * INR 0 / INR P + ph))). lra. }
    assert (Ha : 0 < a). { destruct (Req_dec a 0) as [Z|Z]; [|lra]. subst a. unfold crest_margin in Hm. lra. }
    destruct (near_power P a ph err eta o HP Ha N He Hc Hm L) as (p & Ep & Bp). exists o, p. auto.
Qed.

(** * The coefficients *)
Lemma coefficients w err P at_ bt ar br tf tm rf rm : (3 <= P)%nat -> 0 <= at_ -> 0 <= bt -> 0 <= ar -> 0 <= br ->
  length rm = length rf -> / 10 ^ 15 < mean_square tf -> / 10 ^ 15 < mean_square rf ->
  settles w true err P at_ tf -> settles w false err P bt tm -> settles w true err P ar rf -> settles w false err P br (map2 Rminus rm rf) ->
  exists p1 p2 p3 p4, power_near err at_ p1 /\ power_near err bt p2 /\ power_near err ar p3 /\ power_near err br p4
    /\ calculate_coefficients w tf tm rf rm = Ok (check_and_normalize (tdiv (Fin p2) (Fin p1)) (tdiv (Fin p4) (Fin p3))).
Proof.
  intros HP A1 A2 A3 A4 L M1 M2 S1 S2 S3 S4.
  destruct (settled_power _ _ _ _ _ _ HP A1 S1) as (o1 & p1 & E1 & Q1 & N1). destruct (settled_power _ _ _ _ _ _ HP A2 S2) as (o2 & p2 & E2 & Q2 & N2).
  destruct (settled_power _ _ _ _ _ _ HP A3 S3) as (o3 & p3 & E3 & Q3 & N3). destruct (settled_power _ _ _ _ _ _ HP A4 S4) as (o4 & p4 & E4 & Q4 & N4).
  exists p1, p2, p3, p4. repeat (split; [assumption|]). eapply calculate_value; eauto.
Qed.

Lemma near_zero a p : power_near 0 a p -> p = a ^ 2 / 2.
Proof. unfold power_near. intros H. rewrite Rmult_0_l in H. pose proof (Rabs_le_inv2 _ _ H). lra. Qed.

Lemma exact_coefficients w P at_ bt ar br tf tm rf rm : (3 <= P)%nat -> 0 < at_ -> 0 <= bt -> 0 < ar -> 0 <= br ->
  length rm = length rf -> / 10 ^ 15 < mean_square tf -> / 10 ^ 15 < mean_square rf ->
  settles w true 0 P at_ tf -> settles w false 0 P bt tm -> settles w true 0 P ar rf -> settles w false 0 P br (map2 Rminus rm rf) ->
  (bt / at_) ^ 2 + (br / ar) ^ 2 <= 1 ->
  calculate_coefficients w tf tm rf rm = Ok (Fin ((bt / at_) ^ 2), Fin ((br / ar) ^ 2)).
Proof.
  intros HP A1 A2 A3 A4 L M1 M2 S1 S2 S3 S4 B.
  destruct (coefficients w 0 P at_ bt ar br tf tm rf rm) as (p1 & p2 & p3 & p4 & N1 & N2 & N3 & N4 & E); try assumption; try lra.
  rewrite E. apply near_zero in N1, N2, N3, N4. subst. rewrite !tdiv_Fin by nra. f_equal.
  replace (bt ^ 2 / 2 / (at_ ^ 2 / 2)) with ((bt / at_) ^ 2) by (field; lra). replace (br ^ 2 / 2 / (ar ^ 2 / 2)) with ((br / ar) ^ 2) by (field; lra).
  apply normalize_cases. left. exact B.
Qed.

Lemma ratio_error err a b p q : 0 < a -> 0 <= b <= a -> 0 <= err -> 16 * err <= a -> power_near err a p -> power_near err b q ->
  0 < p /\ tdiv (Fin q) (Fin p) = Fin (q / p) /\ Rabs (q / p - (b / a) ^ 2) <= 13 * (err / a).
Proof.
  unfold power_near. intros A [B0 B1] E0 E1 Hp Hq. apply Rabs_le_inv2 in Hp. apply Rabs_le_inv2 in Hq.
  assert (K : err * (2 * a + err) <= 33 / 16 * (err * a)) by nra. assert (K' : err * (2 * b + err) <= err * (2 * a + err)) by nra.
  set (E := err * (2 * a + err)) in *. assert (EA : err * a <= a * a / 16) by nra. assert (P0 : a ^ 2 / 3 <= p) by nra.
  assert (A2 : 0 < a ^ 2) by nra. assert (Pp : 0 < p) by lra. split; [exact Pp|]. split; [apply tdiv_Fin; lra|].
  replace (q / p - (b / a) ^ 2) with ((a ^ 2 * (q - b ^ 2 / 2) - b ^ 2 * (p - a ^ 2 / 2)) * / (a ^ 2 * p)) by (field; lra).
  assert (D : 0 < a ^ 2 * p) by (apply Rmult_lt_0_compat; lra). rewrite Rabs_mult, (Rabs_right (/ (a ^ 2 * p))) by (left; apply Rinv_0_lt_compat; exact D).
  apply Rmult_le_reg_r with (a ^ 2 * p); [exact D|]. rewrite Rmult_assoc, Rinv_l, Rmult_1_r by lra.
  assert (N : Rabs (a ^ 2 * (q - b ^ 2 / 2) - b ^ 2 * (p - a ^ 2 / 2)) <= 2 * (a ^ 2 * E)).
  { set (x := q - b ^ 2 / 2) in *. set (y := p - a ^ 2 / 2) in *. assert (b ^ 2 <= a ^ 2) by nra. assert (0 <= b ^ 2) by nra. apply Rabs_le. split; nra. }
  eapply Rle_trans; [exact N|]. replace (13 * (err / a) * (a ^ 2 * p)) with (13 * (err * a) * p) by (field; lra).
  assert (0 <= err * a) by nra. assert (13 * (err * a) * (a ^ 2 / 3) <= 13 * (err * a) * p) by (apply Rmult_le_compat_l; lra).
  assert (a ^ 2 * E <= a ^ 2 * (33 / 16 * (err * a))) by (apply Rmult_le_compat_l; lra). nra.
Qed.
