From Coq Require Import Reals ZArith List Bool Lra Lia Psatz.
From Verif Require Import Base BaseLemmas PyVal Model_Materials Model_EpsGrid Model_Coeffs Spec_Coeffs Proof_EpsGrid Proof_Coeffs Spec_Steady.
Import ListNotations.
Open Scope R_scope.

Lemma nth_firstn_lt {X} n (l : list X) i d : (i < n)%nat -> nth i (firstn n l) d = nth i l d.
Proof. revert l i. induction n as [|n IH]; intros [|x l] [|i] H; try lia; cbn; try reflexivity. apply IH. lia. Qed.
Lemma nth_skipn_plus {X} n (l : list X) i d : nth i (skipn n l) d = nth (n + i) l d.
Proof. revert l. induction n as [|n IH]; intros [|x l]; cbn; try reflexivity; [destruct i; reflexivity|]. apply IH. Qed.

Section Steady.
  Variables (P : nat) (a ph : R) (s : list R).
  Hypothesis HP : (3 <= P)%nat.
  Hypothesis Ha : 0 < a.
  Hypothesis Hs : steady P a ph s.
  Notation L := (length s).
  Definition de : R := 2 * PI / INR P.

  Lemma P3 : 3 <= INR P.
  Proof. replace 3 with (INR 3) by (simpl; lra). apply le_INR. exact HP. Qed.
  Lemma de_pos : 0 < de /\ de * INR P = 2 * PI /\ de <= 2 * PI / 3.
  Proof.
    pose proof P3. pose proof PI_RGT_0. unfold de. split; [apply Rdiv_lt_0_compat; lra|]. split; [field; lra|].
    unfold Rdiv. apply Rmult_le_compat_l; [lra|]. apply Rinv_le_contravar; lra.
  Qed.

  (** the phase of the samples, measured from the crest *)
  Definition cz : Z := (- Rfloor (ph / de + / 2))%Z.
  Definition xx : R := ph / de + IZR cz.
  Lemma xx_range : - / 2 <= xx < / 2.
  Proof. unfold xx, cz. destruct (Rfloor_spec (ph / de + / 2)) as [A B]. rewrite opp_IZR. lra. Qed.
  Definition ff (m : Z) : R := a * cos (de * (IZR m + xx)).
  Lemma nth_ff n : (n < L)%nat -> nth n s 0 = ff (Z.of_nat n - cz).
  Proof.
    intros H. rewrite (Hs n ltac:(lia)). unfold ff. f_equal. f_equal. destruct de_pos as (D & _ & _). rewrite minus_IZR, <- INR_IZR_INZ.
    unfold xx. replace (de * (INR n - IZR cz + (ph / de + IZR cz))) with (de * INR n + ph) by (field; lra). unfold de. field. pose proof P3. lra.
  Qed.
  Lemma cos_shift x (k : Z) : cos (x + 2 * IZR k * PI) = cos x.
  Proof.
    destruct (Z_le_gt_dec 0 k) as [H|H].
    - rewrite <- (Z2Nat.id k H), <- INR_IZR_INZ. apply cos_period.
    - rewrite <- (cos_period (x + 2 * IZR k * PI) (Z.to_nat (- k))). f_equal. rewrite INR_IZR_INZ, Z2Nat.id by lia. rewrite opp_IZR. ring.
  Qed.
  Lemma ff_mod m : ff m = ff (m mod Z.of_nat P).
  Proof.
    unfold ff. f_equal. rewrite (Z.div_mod m (Z.of_nat P)) at 1 by lia. rewrite plus_IZR, mult_IZR, <- INR_IZR_INZ.
    destruct de_pos as (_ & D & _). set (q := IZR (m / Z.of_nat P)). set (r := IZR (m mod Z.of_nat P)).
    replace (de * (INR P * q + r + xx)) with (de * (r + xx) + (de * INR P) * q) by ring. rewrite D.
    replace (2 * PI * q) with (2 * q * PI) by ring. unfold q. apply cos_shift.
  Qed.
  Lemma ff_step m : ff m - ff (m + 1) = 2 * a * sin (de / 2) * sin (de * (IZR m + xx + / 2)).
  Proof.
    unfold ff. rewrite plus_IZR. set (y := de * (IZR m + xx + / 2)). replace (de * (IZR m + xx)) with (y - de / 2) by (unfold y; field).
    replace (de * (IZR m + 1 + xx)) with (y + de / 2) by (unfold y; field). rewrite cos_minus, cos_plus. ring.
  Qed.
  Lemma sd : 0 < sin (de / 2) /\ 0 < cos (de / 2).
  Proof. destruct de_pos as (D & _ & D3). pose proof PI_RGT_0. split; [apply sin_gt_0; lra|apply cos_gt_0; lra]. Qed.

  Lemma mod_range m : (0 <= m mod Z.of_nat P < Z.of_nat P)%Z.
  Proof. apply Z.mod_pos_bound. lia. Qed.
  Lemma le_P m : (0 <= m < Z.of_nat P)%Z -> 0 <= IZR m /\ IZR m + 1 <= INR P.
  Proof. intros [A B]. split; [apply IZR_le; exact A|]. rewrite INR_IZR_INZ, <- plus_IZR. apply IZR_le. lia. Qed.

  Lemma ff_step_mod m : ff m - ff (m + 1) = 2 * a * sin (de / 2) * sin (de * (IZR (m mod Z.of_nat P) + xx + / 2)).
  Proof.
    rewrite <- ff_step, <- (ff_mod m). f_equal. rewrite (ff_mod (m + 1)), (ff_mod (m mod _ + 1)). f_equal. rewrite Z.add_mod_idemp_l by lia. reflexivity.
  Qed.

  Lemma crest m : ff (m + 1) < ff m -> ff (m - 1) < ff m -> (m mod Z.of_nat P = 0)%Z /\ - / 2 < xx.
  Proof.
    intros A B. pose proof xx_range as X. destruct sd as [S _]. destruct de_pos as (D & DP & D3). pose proof PI_RGT_0 as PI0.
    pose proof (ff_step_mod m) as E1. set (r := (m mod Z.of_nat P)%Z) in *. pose proof (mod_range m) as Rr. fold r in Rr. destruct (le_P r Rr) as [R0 R1].
    assert (C : 0 < 2 * a * sin (de / 2)) by (repeat apply Rmult_lt_0_compat; lra).
    assert (S1 : 0 < sin (de * (IZR r + xx + / 2))) by (apply Rmult_lt_reg_l with (2 * a * sin (de / 2)); [exact C|]; rewrite Rmult_0_r, <- E1; lra).
    assert (N0 : 0 <= de * (IZR r + xx + / 2)) by (apply Rmult_le_pos; lra).
    assert (U0 : de * (IZR r + xx + / 2) < 2 * PI) by (rewrite <- DP; apply Rmult_lt_compat_l; lra).
    assert (U1 : de * (IZR r + xx + / 2) < PI).
    { destruct (Rlt_le_dec (de * (IZR r + xx + / 2)) PI) as [H|H]; [exact H|]. exfalso. pose proof (sin_le_0 _ H ltac:(lra)). lra. }
    destruct (Z.eq_dec r 0) as [Z0|Z0].
    - split; [exact Z0|]. rewrite Z0 in S1. destruct (Req_dec xx (- / 2)) as [E|E]; [|lra].
      rewrite E in S1. replace (de * (0 + - / 2 + / 2)) with 0 in S1 by field. rewrite sin_0 in S1. lra.
    - exfalso. pose proof (ff_step_mod (m - 1)) as E2. replace (m - 1 + 1)%Z with m in E2 by lia.
      assert (Q : ((m - 1) mod Z.of_nat P = r - 1)%Z).
      { unfold r. rewrite <- Zminus_mod_idemp_l. apply Z.mod_small. fold r. lia. }
      rewrite Q, minus_IZR in E2. assert (R2 : 1 <= IZR r) by (apply IZR_le; lia).
      assert (0 <= sin (de * (IZR r - 1 + xx + / 2))).
      { apply sin_ge_0; [apply Rmult_le_pos; lra|]. apply Rle_trans with (de * (IZR r + xx + / 2)); [apply Rmult_le_compat_l; lra|lra]. }
      assert (0 <= 2 * a * sin (de / 2) * sin (de * (IZR r - 1 + xx + / 2))) by (apply Rmult_le_pos; lra). lra.
  Qed.
  Lemma crest' m : (m mod Z.of_nat P = 0)%Z -> - / 2 < xx -> ff (m + 1) < ff m /\ ff (m - 1) < ff m.
  Proof.
    intros Z0 X'. pose proof xx_range as X. destruct sd as [S _]. destruct de_pos as (D & DP & D3). pose proof PI_RGT_0 as PI0.
    assert (C : 0 < 2 * a * sin (de / 2)) by (repeat apply Rmult_lt_0_compat; lra).
    assert (F0 : ff m = ff 0) by (rewrite ff_mod, Z0; reflexivity).
    pose proof (ff_step 0) as E1. pose proof (ff_step (- 1)) as E2. cbn [Z.add] in E1. replace (-1 + 1)%Z with 0%Z in E2 by lia.
    assert (F1 : ff (m + 1) = ff 1). { rewrite ff_mod, <- Z.add_mod_idemp_l, Z0 by lia. rewrite (ff_mod 1). reflexivity. }
    assert (F2 : ff (m - 1) = ff (- 1)). { rewrite ff_mod, <- Zminus_mod_idemp_l, Z0. rewrite (ff_mod (- 1)). reflexivity. }
    rewrite F0, F1, F2. split.
    - assert (0 < sin (de * (0 + xx + / 2))).
      { apply sin_gt_0; [apply Rmult_lt_0_compat; lra|]. apply Rlt_le_trans with (de * 1); [apply Rmult_lt_compat_l; lra|lra]. }
      assert (0 < 2 * a * sin (de / 2) * sin (de * (0 + xx + / 2))) by (apply Rmult_lt_0_compat; lra). change (IZR 0) with 0 in E1. lra.
    - assert (SN : 0 < - sin (de * (-1 + xx + / 2))).
      { rewrite <- sin_neg. replace (- (de * (-1 + xx + / 2))) with (de * (/ 2 - xx)) by field. apply sin_gt_0; [apply Rmult_lt_0_compat; lra|].
        apply Rle_lt_trans with (de * 1); [apply Rmult_le_compat_l; lra|lra]. }
      assert (0 < 2 * a * sin (de / 2) * - sin (de * (-1 + xx + / 2))) by (apply Rmult_lt_0_compat; lra). change (IZR (- 1)) with (-1) in E2. lra.
  Qed.

  (** the first crest *)
  Definition p0 : nat := Z.to_nat (1 + (cz - 1) mod Z.of_nat P).
  Lemma p0_range : (1 <= p0 <= P)%nat.
  Proof. unfold p0. pose proof (Z.mod_pos_bound (cz - 1) (Z.of_nat P) ltac:(lia)). lia. Qed.
  Lemma p0_mod q : ((Z.of_nat (p0 + P * q) - cz) mod Z.of_nat P = 0)%Z.
  Proof.
    unfold p0. pose proof (Z.mod_pos_bound (cz - 1) (Z.of_nat P) ltac:(lia)). rewrite Nat2Z.inj_add, Nat2Z.inj_mul, Z2Nat.id by lia.
    replace (1 + (cz - 1) mod Z.of_nat P + Z.of_nat P * Z.of_nat q - cz)%Z with ((cz - 1) mod Z.of_nat P - (cz - 1) + Z.of_nat q * Z.of_nat P)%Z by ring.
    rewrite Z.mod_add by lia. rewrite Zminus_mod_idemp_l. rewrite Z.sub_diag. apply Z.mod_0_l. lia.
  Qed.
  Lemma p0_all n : (1 <= n)%nat -> ((Z.of_nat n - cz) mod Z.of_nat P = 0)%Z -> exists q, n = (p0 + P * q)%nat.
  Proof.
    intros Hn E. pose proof (p0_mod 0) as E0. rewrite Nat.mul_0_r, Nat.add_0_r in E0. pose proof p0_range as R0.
    assert (D : ((Z.of_nat n - Z.of_nat p0) mod Z.of_nat P = 0)%Z).
    { replace (Z.of_nat n - Z.of_nat p0)%Z with ((Z.of_nat n - cz) - (Z.of_nat p0 - cz))%Z by ring. rewrite Zminus_mod, E, E0. apply Z.mod_0_l. lia. }
    apply Z.mod_divide in D; [|lia]. destruct D as [q Q]. exists (Z.to_nat q). assert (0 <= q)%Z by nia. lia.
  Qed.

  Lemma peak_iff n : is_peak s n <-> (1 <= n)%nat /\ (n + 1 < L)%nat /\ - / 2 < xx /\ exists q, n = (p0 + P * q)%nat.
  Proof.
    unfold is_peak. split.
    - intros (A & B & C & D). rewrite !nth_ff in C, D by lia.
      replace (Z.of_nat (n - 1) - cz)%Z with (Z.of_nat n - cz - 1)%Z in C by lia. replace (Z.of_nat (n + 1) - cz)%Z with (Z.of_nat n - cz + 1)%Z in D by lia.
      destruct (crest _ D C) as [E X]. split; [lia|]. split; [lia|]. split; [exact X|]. apply p0_all; [lia|exact E].
    - intros (A & B & X & q & ->). split; [lia|]. split; [lia|]. rewrite !nth_ff by lia. destruct (crest' _ (p0_mod q) X) as [E1 E2].
      replace (Z.of_nat (p0 + P * q - 1) - cz)%Z with (Z.of_nat (p0 + P * q) - cz - 1)%Z by lia. replace (Z.of_nat (p0 + P * q + 1) - cz)%Z with (Z.of_nat (p0 + P * q) - cz + 1)%Z by lia.
      split; [exact E2|exact E1].
  Qed.

  Lemma flat_iff : (2 * P + 2 <= L)%nat -> (flat_crest s <-> xx = - / 2).
  Proof.
    intros HL. pose proof xx_range as X. destruct sd as [S C]. destruct de_pos as (D & DP & D3). pose proof PI_RGT_0 as PI0.
    assert (CC : 0 < 2 * a * sin (de / 2)) by (repeat apply Rmult_lt_0_compat; lra). split.
    - intros (n & Hn & E & Pn). rewrite !nth_ff in E by lia. rewrite nth_ff in Pn by lia. replace (Z.of_nat (Datatypes.S n) - cz)%Z with (Z.of_nat n - cz + 1)%Z in E by lia.
      set (m := (Z.of_nat n - cz)%Z) in *. pose proof (ff_step_mod m) as E1. pose proof (ff_mod m) as EM. set (r := (m mod Z.of_nat P)%Z) in *. pose proof (mod_range m) as Rr. fold r in Rr. destruct (le_P r Rr) as [R0 R1].
      rewrite <- E in E1. replace (ff m - ff m) with 0 in E1 by ring. symmetry in E1. apply Rmult_integral in E1. destruct E1 as [E1|E1]; [lra|].
      assert (N0 : 0 <= de * (IZR r + xx + / 2)) by (apply Rmult_le_pos; lra).
      assert (U0 : de * (IZR r + xx + / 2) < 2 * PI) by (rewrite <- DP; apply Rmult_lt_compat_l; lra).
      destruct (Req_dec (IZR r + xx + / 2) 0) as [Q|Q]; [lra|]. exfalso.
      assert (N1 : 0 < de * (IZR r + xx + / 2)) by (apply Rmult_lt_0_compat; lra).
      assert (Y : de * (IZR r + xx + / 2) = PI).
      { destruct (Rtotal_order (de * (IZR r + xx + / 2)) PI) as [H|[H|H]]; [|exact H|].
        - pose proof (sin_gt_0 _ N1 H). lra.
        - pose proof (sin_lt_0 _ H U0). lra. }
      rewrite EM in Pn. unfold ff in Pn. replace (de * (IZR r + xx)) with (PI - de / 2) in Pn by (rewrite <- Y; field).
      rewrite Rtrigo_facts.cos_pi_minus in Pn. assert (0 < a * cos (de / 2)) by (apply Rmult_lt_0_compat; lra). lra.
    - intros E. pose proof p0_range as R0. pose proof (p0_mod 0) as E0. rewrite Nat.mul_0_r, Nat.add_0_r in E0. exists p0. split; [lia|].
      rewrite !nth_ff by lia. replace (Z.of_nat (Datatypes.S p0) - cz)%Z with (Z.of_nat p0 - cz + 1)%Z by lia. set (m := (Z.of_nat p0 - cz)%Z) in *.
      assert (F0 : ff m = a * cos (de / 2)).
      { rewrite ff_mod, E0. unfold ff. rewrite E. replace (de * (0 + - / 2)) with (- (de / 2)) by field. rewrite cos_neg. reflexivity. }
      assert (F1 : ff (m + 1) = a * cos (de / 2)).
      { rewrite ff_mod, <- Z.add_mod_idemp_l, E0 by lia. rewrite <- ff_mod. unfold ff. rewrite E. cbn [Z.add]. replace (de * (1 + - / 2)) with (de / 2) by field. reflexivity. }
      rewrite F0, F1. split; [reflexivity|]. apply Rmult_lt_0_compat; lra.
  Qed.

  (** ** the mean square over whole periods *)
  Lemma sum_cos th n : 2 * sin de * Rsum (map (fun i => cos (2 * (th + de * INR i))) (seq 0 n)) = sin (2 * th + 2 * de * INR n - de) - sin (2 * th - de).
  Proof.
    induction n as [|n IH]; [replace (2 * th + 2 * de * INR 0 - de) with (2 * th - de) by (simpl; ring); unfold Rsum; cbn; ring|].
    rewrite seq_S, map_app, Rsum_app. cbn [map]. replace (Rsum [cos (2 * (th + de * INR (0 + n)))]) with (cos (2 * (th + de * INR n))) by (unfold Rsum; cbn [fold_right plus]; ring).
    rewrite Rmult_plus_distr_l, IH, S_INR. set (y := 2 * (th + de * INR n)).
    replace (2 * th + 2 * de * INR n - de) with (y - de) by (unfold y; ring). replace (2 * th + 2 * de * (INR n + 1) - de) with (y + de) by (unfold y; ring).
    rewrite sin_minus, sin_plus. ring.
  Qed.
  Lemma sum_squares th q : Rsum (map (fun i => cos (th + de * INR i) ^ 2) (seq 0 (P * q))) = INR (P * q) / 2.
  Proof.
    destruct de_pos as (D & DP & D3). pose proof PI_RGT_0 as PI0. assert (SD : 0 < sin de) by (apply sin_gt_0; lra).
    assert (Z : Rsum (map (fun i => cos (2 * (th + de * INR i))) (seq 0 (P * q))) = 0).
    { apply Rmult_eq_reg_l with (2 * sin de); [|lra]. rewrite sum_cos, Rmult_0_r, mult_INR.
      replace (2 * th + 2 * de * (INR P * INR q) - de) with (2 * th - de + 2 * (INR q * (de * INR P))) by ring. rewrite DP.
      replace (2 * th - de + 2 * (INR q * (2 * PI))) with (2 * th - de + 2 * (2 * INR q) * PI) by ring.
      replace (2 * INR q) with (INR (2 * q)) by (rewrite mult_INR; simpl; ring). rewrite sin_period. ring. }
    assert (G : forall l : list nat, Rsum (map (fun i => cos (th + de * INR i) ^ 2) l) = (INR (length l) + Rsum (map (fun i => cos (2 * (th + de * INR i))) l)) / 2).
    { induction l as [|i l IH]; [cbn; unfold Rsum; cbn; field|]. cbn [map length]. change (Rsum (?u :: ?v)) with (u + Rsum v). rewrite IH, S_INR, cos_2a_cos. field. }
    rewrite G, Z, seq_length. field.
  Qed.

  Lemma power_exact : (2 * P + 2 <= L)%nat -> ~ flat_crest s -> signal_power s = Ok (a ^ 2 / 2).
  Proof.
    intros HL NF. rewrite flat_iff in NF by exact HL. pose proof xx_range as X. assert (X' : - / 2 < xx) by lra. clear NF.
    pose proof p0_range as R0. set (q := ((L - 2 - p0) / P)%nat). assert (Q1 : (P * q <= L - 2 - p0)%nat) by (apply Nat.mul_div_le; lia).
    assert (Q2 : (L - 2 - p0 < P * Datatypes.S q)%nat) by (apply Nat.mul_succ_div_gt; lia). assert (Q3 : (1 <= q)%nat) by (apply Nat.div_le_lower_bound; lia).
    assert (Pa : is_peak s p0) by (apply peak_iff; split; [lia|]; split; [lia|]; split; [exact X'|]; exists 0%nat; lia).
    assert (Pb : is_peak s (p0 + P * q)) by (apply peak_iff; split; [lia|]; split; [lia|]; split; [exact X'|]; exists q; lia).
    assert (Al : forall i, is_peak s i -> (p0 <= i <= p0 + P * q)%nat).
    { intros i Hi. apply peak_iff in Hi. destruct Hi as (_ & I2 & _ & r & ->). split; [lia|]. assert (r < Datatypes.S q)%nat by nia. nia. }
    destruct (power_peaks s p0 (p0 + P * q) Pa Pb ltac:(nia) Al) as [E Len]. rewrite E. f_equal. replace (p0 + P * q - p0)%nat with (P * q)%nat in * by lia.
    unfold mean_square. rewrite Len. set (ws := firstn (P * q) (skipn p0 s)) in *.
    assert (Ew : map (fun x => x * x) ws = map (fun i => a ^ 2 * cos ((de * INR p0 + ph) + de * INR i) ^ 2) (seq 0 (P * q))).
    { apply nth_ext with 0 0; [rewrite !map_length, seq_length; exact Len|]. intros n Hn. rewrite map_length, Len in Hn.
      set (f := fun i => a ^ 2 * _). assert (E2 : nth n (map f (seq 0 (P * q))) 0 = f n).
      { rewrite (nth_indep _ _ (f 0%nat)) by (rewrite map_length, seq_length; lia). rewrite map_nth, seq_nth by exact Hn. reflexivity. }
      rewrite E2. unfold f. assert (E3 : nth n (map (fun x => x * x) ws) 0 = nth n ws 0 * nth n ws 0).
      { rewrite (nth_indep _ _ (0 * 0)) by (rewrite map_length; lia). apply (map_nth (fun x => x * x)). }
      rewrite E3.
      assert (En : nth n ws 0 = a * cos ((de * INR p0 + ph) + de * INR n)).
      { unfold ws. rewrite nth_firstn_lt by exact Hn. rewrite nth_skipn_plus. rewrite Hs by lia. f_equal. f_equal. unfold de. rewrite plus_INR. field. pose proof P3. lra. }
      rewrite En. ring. }
    rewrite Ew. assert (Sc : forall l : list nat, Rsum (map (fun i => a ^ 2 * cos ((de * INR p0 + ph) + de * INR i) ^ 2) l) = a ^ 2 * Rsum (map (fun i => cos ((de * INR p0 + ph) + de * INR i) ^ 2) l)).
    { induction l as [|i l IH]; [unfold Rsum; cbn; ring|]. cbn [map]. change (Rsum (?u :: ?v)) with (u + Rsum v). rewrite IH. ring. }
    rewrite Sc, sum_squares. assert (0 < INR (P * q)) by (apply lt_0_INR; nia). field. lra.
  Qed.

  Lemma cos_far y : de / 2 <= y <= 2 * PI - de / 2 -> cos y <= cos (de / 2).
  Proof.
    intros Y. destruct de_pos as (D & DP & D3). pose proof PI_RGT_0 as PI0. destruct (Rle_lt_dec y PI) as [H|H].
    - apply cos_decr_1; lra.
    - replace (cos y) with (cos (2 * PI - y)); [apply cos_decr_1; lra|]. replace (2 * PI - y) with (- y + 2 * INR 1 * PI) by (simpl; ring). rewrite cos_period, cos_neg. reflexivity.
  Qed.
  Lemma power_flat : (2 * P + 2 <= L)%nat -> flat_crest s -> signal_power s = Ok (a ^ 2 * cos (PI / INR P) ^ 2 / 2).
  Proof.
    intros HL FC. pose proof (proj1 (flat_iff HL) FC) as E. destruct de_pos as (D & DP & D3). destruct sd as [S C].
    assert (Ns : s <> []) by (destruct s; [cbn in HL; lia|discriminate]).
    rewrite power_few_peaks; [|exact Ns|intros u v Hu; apply peak_iff in Hu; destruct Hu as (_ & _ & Hu & _); lra]. f_equal.
    replace (PI / INR P) with (de / 2) by (unfold de; field; pose proof P3; lra).
    assert (M : Rmaximum s = a * cos (de / 2)); [|rewrite M; field].
    destruct FC as (n & Hn & En & _). pose proof p0_range as R0. pose proof (p0_mod 0) as E0. rewrite Nat.mul_0_r, Nat.add_0_r in E0.
    apply Rmaximum_unique; [exact Ns| |].
    - replace (a * cos (de / 2)) with (nth p0 s 0); [apply nth_In; lia|]. rewrite nth_ff by lia. rewrite ff_mod, E0. unfold ff. rewrite E.
      replace (de * (0 + - / 2)) with (- (de / 2)) by field. rewrite cos_neg. reflexivity.
    - intros y Hy. destruct (In_nth _ _ 0 Hy) as (i & Hi & <-). rewrite nth_ff by exact Hi. rewrite ff_mod. set (m := (Z.of_nat i - cz)%Z). pose proof (mod_range m) as Rr. set (r := (m mod Z.of_nat P)%Z) in *.
      destruct (le_P r Rr) as [R1 R2]. unfold ff. apply Rmult_le_compat_l; [lra|]. rewrite E. destruct (Z.eq_dec r 0) as [->|N].
      + replace (de * (0 + - / 2)) with (- (de / 2)) by field. rewrite cos_neg. lra.
      + assert (1 <= IZR r) by (apply IZR_le; lia). apply cos_far. rewrite <- DP. split.
        * replace (de / 2) with (de * / 2) by field. apply Rmult_le_compat_l; lra.
        * replace (de * INR P - de / 2) with (de * (INR P - / 2)) by field. apply Rmult_le_compat_l; lra.
  Qed.
End Steady.
