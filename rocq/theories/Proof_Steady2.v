From Coq Require Import Reals ZArith List Bool Lra Lia Psatz.
From Verif Require Import Base BaseLemmas PyVal Model_Materials Model_EpsGrid Model_Coeffs Spec_Coeffs Proof_EpsGrid Proof_Coeffs Spec_Steady Proof_Steady.
Import ListNotations.
Open Scope R_scope.

Lemma Rabs_le_inv2 x y : Rabs x <= y -> - y <= x <= y.
Proof. unfold Rabs. destruct (Rcase_abs x); lra. Qed.
Lemma sin_middle x y : 0 <= x -> x <= y -> y <= PI - x -> sin x <= sin y.
Proof.
  intros H0 H1 H2. destruct (Rle_lt_dec y (PI / 2)) as [L|L].
  - apply sin_incr_1; lra.
  - rewrite <- (sin_PI_x y). apply sin_incr_1; lra.
Qed.
Lemma sin_below x y : 0 <= x -> PI + x <= y -> y <= 2 * PI - x -> sin y <= - sin x.
Proof.
  intros H0 H1 H2. replace y with ((y - PI) + PI) by ring. rewrite neg_sin. pose proof (sin_middle x (y - PI)). lra.
Qed.

Section Near.
  Variables (P : nat) (a ph err eta : R) (s : list R).
  Hypothesis HP : (3 <= P)%nat.
  Hypothesis Ha : 0 < a.
  Hypothesis Hn : near_steady err P a ph s.
  Hypothesis He : 0 < eta <= / 2.
  Hypothesis Hc : crest_off_middle P ph eta.
  Hypothesis Hm : 2 * err < crest_margin P a eta.
  Notation L := (length s).
  Notation de := (de P).
  Notation xx := (xx P ph).
  Notation cz := (cz P ph).
  Notation ff := (ff P a ph).

  Lemma xx_off : - / 2 + eta <= xx <= / 2 - eta.
  Proof.
    destruct Hc as [z Hz]. fold de in Hz. apply Rabs_le_inv2 in Hz. 
    pose proof (xx_range P ph) as X. unfold Proof_Steady.xx in *. set (y := ph / de) in *.
    assert (Ez : (cz = - z)%Z).
    { unfold Proof_Steady.cz. f_equal. apply Rfloor_unique. fold y. lra. }
    rewrite Ez, opp_IZR. lra.
  Qed.
  Definition MM : R := 2 * a * sin (de / 2).
  Lemma margin : crest_margin P a eta = MM * sin (de * eta) /\ 0 < MM.
  Proof.
    destruct (sd P HP) as [S _]. unfold crest_margin, MM. pose proof (P3 P HP) as P3. split.
    - replace (PI / INR P) with (de / 2) by (unfold Proof_Steady.de; field; lra). fold de. ring.
    - repeat apply Rmult_lt_0_compat; lra.
  Qed.
  Lemma near_ff n : (n < L)%nat -> Rabs (nth n s 0 - ff (Z.of_nat n - cz)) <= err.
  Proof.
    intros H. pose proof (Hn n H) as A. replace (ff (Z.of_nat n - cz)) with (a * cos (2 * PI * INR n / INR P + ph)); [exact A|].
    unfold Proof_Steady.ff. f_equal. f_equal. destruct (de_pos P HP) as (D & _ & _). rewrite minus_IZR, <- INR_IZR_INZ.
    unfold Proof_Steady.xx. replace (de * (INR n - IZR cz + (ph / de + IZR cz))) with (de * INR n + ph) by (field; lra). unfold Proof_Steady.de. field. pose proof (P3 P HP). lra.
  Qed.

  Lemma near_crest' m : (m mod Z.of_nat P = 0)%Z -> ff (m + 1) + 2 * err < ff m /\ ff (m - 1) + 2 * err < ff m.
  Proof.
    intros Z0. pose proof xx_off as X. destruct (de_pos P HP) as (D & DP & D3). pose proof PI_RGT_0 as PI0. destruct margin as [Em M0]. rewrite Em in Hm.
    assert (F0 : ff m = ff 0) by (rewrite ff_mod by assumption; rewrite Z0; reflexivity).
    pose proof (ff_step P a ph 0) as E1. pose proof (ff_step P a ph (- 1)) as E2. cbn [Z.add] in E1. replace (-1 + 1)%Z with 0%Z in E2 by lia.
    assert (F1 : ff (m + 1) = ff 1). { rewrite ff_mod by assumption. rewrite <- Z.add_mod_idemp_l, Z0 by lia. rewrite (ff_mod P a ph HP 1). reflexivity. }
    assert (F2 : ff (m - 1) = ff (- 1)). { rewrite ff_mod by assumption. rewrite <- Zminus_mod_idemp_l, Z0. rewrite (ff_mod P a ph HP (- 1)). reflexivity. }
    rewrite F0, F1, F2. fold MM in E1, E2. change (IZR 0) with 0 in E1. change (IZR (- 1)) with (-1) in E2.
    assert (Bd : forall y, eta <= y <= 1 - eta -> MM * sin (de * eta) <= MM * sin (de * y)).
    { intros y Y. apply Rmult_le_compat_l; [lra|]. apply sin_middle.
      - apply Rmult_le_pos; lra.
      - apply Rmult_le_compat_l; lra.
      - apply Rle_trans with (de * (1 - eta)); [apply Rmult_le_compat_l; lra|]. lra. }
    split.
    - pose proof (Bd (0 + xx + / 2) ltac:(lra)). lra.
    - pose proof (Bd (- (-1 + xx + / 2)) ltac:(lra)) as Q. replace (de * - (-1 + xx + / 2)) with (- (de * (-1 + xx + / 2))) in Q by ring. rewrite sin_neg in Q.
      set (u := sin (de * (-1 + xx + / 2))) in *. replace (MM * - u) with (- (MM * u)) in Q by ring. lra.
  Qed.
  Lemma near_crest m : ff (m + 1) - 2 * err < ff m -> ff (m - 1) - 2 * err < ff m -> (m mod Z.of_nat P = 0)%Z.
  Proof.
    intros A B. pose proof xx_off as X. destruct (de_pos P HP) as (D & DP & D3). pose proof PI_RGT_0 as PI0. destruct margin as [Em M0]. rewrite Em in Hm.
    destruct (Z.eq_dec (m mod Z.of_nat P) 0) as [Z0|Z0]; [exact Z0|]. exfalso.
    pose proof (ff_step_mod P a ph HP m) as E1. fold MM in E1. pose proof (mod_range P HP m) as Rr. set (r := (m mod Z.of_nat P)%Z) in *. destruct (le_P P HP r Rr) as [R0 R1].
    pose proof (ff_step_mod P a ph HP (m - 1)) as E2. replace (m - 1 + 1)%Z with m in E2 by lia. fold MM in E2.
    assert (Q : ((m - 1) mod Z.of_nat P = r - 1)%Z).
    { unfold r. rewrite <- Zminus_mod_idemp_l. apply Z.mod_small. fold r. lia. }
    rewrite Q, minus_IZR in E2. assert (R2 : 1 <= IZR r) by (apply IZR_le; lia).
    set (y := IZR r - 1 + xx + / 2) in *. replace (IZR r + xx + / 2) with (y + 1) in E1 by (unfold y; ring).
    assert (Y0 : de * eta <= de * y) by (apply Rmult_le_compat_l; unfold y; lra).
    assert (Y1 : de * (y + 1) <= 2 * PI - de * eta) by (rewrite <- DP; replace (de * INR P - de * eta) with (de * (INR P - eta)) by ring; apply Rmult_le_compat_l; unfold y; lra).
    assert (E0 : 0 <= de * eta) by (apply Rmult_le_pos; lra).
    assert (U : PI - de * eta < de * y).
    { destruct (Rle_lt_dec (de * y) (PI - de * eta)) as [H|H]; [|exact H]. exfalso. pose proof (sin_middle _ _ E0 Y0 H) as Q'. apply (Rmult_le_compat_l MM) in Q'; lra. }
    assert (V : de * (y + 1) < PI + de * eta).
    { destruct (Rle_lt_dec (PI + de * eta) (de * (y + 1))) as [H|H]; [|exact H]. exfalso. pose proof (sin_below _ _ E0 H Y1) as Q'. apply (Rmult_le_compat_l MM) in Q'; lra. }
    assert (de * (2 * eta) <= de * 1) by (apply Rmult_le_compat_l; lra). lra.
  Qed.

  Notation p0 := (p0 P ph).
  Lemma near_peak_iff n : is_peak s n <-> (1 <= n)%nat /\ (n + 1 < L)%nat /\ exists q, n = (p0 + P * q)%nat.
  Proof.
    assert (Nr : forall i, (i < L)%nat -> ff (Z.of_nat i - cz) - err <= nth i s 0 <= ff (Z.of_nat i - cz) + err).
    { intros i Hi. pose proof (near_ff i Hi) as Q. apply Rabs_le_inv2 in Q. lra. }
    unfold is_peak. split.
    - intros (A & B & C & D). pose proof (Nr n ltac:(lia)) as N0. pose proof (Nr (n - 1)%nat ltac:(lia)) as N1. pose proof (Nr (n + 1)%nat ltac:(lia)) as N2.
      replace (Z.of_nat (n - 1) - cz)%Z with (Z.of_nat n - cz - 1)%Z in N1 by lia. replace (Z.of_nat (n + 1) - cz)%Z with (Z.of_nat n - cz + 1)%Z in N2 by lia.
      split; [lia|]. split; [lia|]. apply (p0_all P ph HP); [lia|]. apply near_crest; lra.
    - intros (A & B & q & E). pose proof (near_crest' _ (p0_mod P ph HP q)) as [E1 E2]. rewrite <- E in E1, E2.
      pose proof (Nr n ltac:(lia)) as N0. pose proof (Nr (n - 1)%nat ltac:(lia)) as N1. pose proof (Nr (n + 1)%nat ltac:(lia)) as N2.
      replace (Z.of_nat (n - 1) - cz)%Z with (Z.of_nat n - cz - 1)%Z in N1 by lia. replace (Z.of_nat (n + 1) - cz)%Z with (Z.of_nat n - cz + 1)%Z in N2 by lia.
      split; [lia|]. split; [lia|]. lra.
  Qed.

  Lemma near_power : (2 * P + 2 <= L)%nat -> exists p, signal_power s = Ok p /\ power_near err a p.
  Proof.
    intros HL. pose proof (p0_range P ph HP) as R0. set (q := ((L - 2 - p0) / P)%nat). assert (Q1 : (P * q <= L - 2 - p0)%nat) by (apply Nat.mul_div_le; lia).
    assert (Q2 : (L - 2 - p0 < P * S q)%nat) by (apply Nat.mul_succ_div_gt; lia). assert (Q3 : (1 <= q)%nat) by (apply Nat.div_le_lower_bound; lia).
    assert (Pa : is_peak s p0) by (apply near_peak_iff; split; [lia|]; split; [lia|]; exists 0%nat; lia).
    assert (Pb : is_peak s (p0 + P * q)) by (apply near_peak_iff; split; [lia|]; split; [lia|]; exists q; lia).
    assert (Al : forall i, is_peak s i -> (p0 <= i <= p0 + P * q)%nat).
    { intros i Hi. apply near_peak_iff in Hi. destruct Hi as (_ & I2 & r & ->). split; [lia|]. assert (r < S q)%nat by nia. nia. }
    destruct (power_peaks s p0 (p0 + P * q) Pa Pb ltac:(nia) Al) as [E Len]. rewrite E. eexists. split; [reflexivity|].
    replace (p0 + P * q - p0)%nat with (P * q)%nat in * by lia. unfold power_near, mean_square. rewrite Len.
    set (ws := firstn (P * q) (skipn p0 s)) in *. set (th := de * INR p0 + ph). set (N := (P * q)%nat) in *.
    assert (N0 : 0 < INR N) by (apply lt_0_INR; unfold N; nia).
    assert (Er : 0 <= err). { pose proof (Hn 0%nat ltac:(lia)) as Q. pose proof (Rabs_pos (nth 0 s 0 - a * cos (2 * PI * INR 0 / INR P + ph))). lra. }
    assert (Ew : forall n, (n < N)%nat -> Rabs (nth n ws 0 - a * cos (th + de * INR n)) <= err).
    { intros n H. unfold ws. rewrite nth_firstn_lt by exact H. rewrite nth_skipn_plus. pose proof (Hn (p0 + n)%nat ltac:(lia)) as Q.
      replace (th + de * INR n) with (2 * PI * INR (p0 + n) / INR P + ph); [exact Q|]. unfold th, Proof_Steady.de. rewrite plus_INR. field. pose proof (P3 P HP). lra. }
    assert (Sq : forall n, (n < N)%nat -> Rabs (nth n ws 0 * nth n ws 0 - a ^ 2 * cos (th + de * INR n) ^ 2) <= err * (2 * a + err)).
    { intros n H. pose proof (Ew n H) as Q. pose proof (COS_bound (th + de * INR n)) as CB. set (c := cos (th + de * INR n)) in *. set (x := nth n ws 0) in *.
      replace (x * x - a ^ 2 * c ^ 2) with ((x - a * c) * (x - a * c + 2 * (a * c))) by ring. rewrite Rabs_mult.
      apply Rmult_le_compat; try apply Rabs_pos; [exact Q|]. eapply Rle_trans; [apply Rabs_triang|].
      assert (Rabs (2 * (a * c)) <= 2 * a); [|lra]. rewrite !Rabs_mult, (Rabs_right 2), (Rabs_right a) by lra. assert (Rabs c <= 1) by (apply Rabs_le; lra). nra. }
    assert (Sum : forall M f, (M <= N)%nat -> (forall n, (n < N)%nat -> Rabs (nth n ws 0 * nth n ws 0 - f n) <= err * (2 * a + err)) ->
      Rabs (Rsum (map (fun x => x * x) (firstn M ws)) - Rsum (map f (seq 0 M))) <= INR M * (err * (2 * a + err))).
    { induction M as [|M IH]; intros f HM Hf.
      - cbn [firstn seq map]. replace (Rsum [] - Rsum []) with 0 by ring. rewrite Rabs_R0. simpl. lra.
      - assert (Fs : firstn (S M) ws = firstn M ws ++ [nth M ws 0]).
        { assert (Lw : (M < length ws)%nat) by lia. clear -Lw. revert M Lw. induction ws as [|x l IH]; intros [|M] H; cbn in *; try lia; [reflexivity|]. f_equal. apply IH. lia. }
        rewrite Fs, map_app, Rsum_app, seq_S, map_app, Rsum_app. cbn [map plus]. specialize (IH f ltac:(lia) Hf). specialize (Hf M ltac:(lia)). rewrite S_INR.
        replace (Rsum [nth M ws 0 * nth M ws 0]) with (nth M ws 0 * nth M ws 0) by (unfold Rsum; cbn; ring). replace (Rsum [f M]) with (f M) by (unfold Rsum; cbn; ring).
        set (A := Rsum (map _ (firstn M ws))) in *. set (B := Rsum (map f (seq 0 M))) in *.
        replace (A + nth M ws 0 * nth M ws 0 - (B + f M)) with ((A - B) + (nth M ws 0 * nth M ws 0 - f M)) by ring.
        eapply Rle_trans; [apply Rabs_triang|]. lra. }
    pose proof (Sum N (fun i => a ^ 2 * cos (th + de * INR i) ^ 2) ltac:(lia) Sq) as T. rewrite firstn_all2 in T by lia.
    assert (Sc : forall l : list nat, Rsum (map (fun i => a ^ 2 * cos (th + de * INR i) ^ 2) l) = a ^ 2 * Rsum (map (fun i => cos (th + de * INR i) ^ 2) l)).
    { induction l as [|i l IH]; [unfold Rsum; cbn; ring|]. cbn [map]. change (Rsum (?u :: ?v)) with (u + Rsum v). rewrite IH. ring. }
    rewrite Sc in T. assert (SS := sum_squares P HP th q). fold N in SS. rewrite SS in T.
    replace (Rsum (map (fun x => x * x) ws) / INR N - a ^ 2 / 2) with ((Rsum (map (fun x => x * x) ws) - a ^ 2 * (INR N / 2)) / INR N) by (field; lra).
    unfold Rdiv at 1. rewrite Rabs_mult, (Rabs_right (/ INR N)) by (left; apply Rinv_0_lt_compat; exact N0).
    apply Rmult_le_reg_r with (INR N); [exact N0|]. rewrite Rmult_assoc, Rinv_l by lra. lra.
  Qed.
End Near.
