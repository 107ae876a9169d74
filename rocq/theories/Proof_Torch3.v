(** Line cells computed with rounding. *)
From Coq Require Import Reals ZArith List Bool Lra Lia.
From Flocq Require Zaux Raux Generic_fmt FLX Relative.
From Verif Require Import Base BaseLemmas Model_FDTD Model_Register Model_Torch Spec_Torch Proof_Torch2.
Import ListNotations.
Open Scope R_scope.

Lemma trunc_pos x z : (0 <= z)%Z -> IZR z <= x < IZR z + 1 -> Rtrunc x = z.
Proof.
  intros Hz H. apply IZR_le in Hz. unfold Rtrunc. destruct (Rle_dec 0 x); [apply int_part_eq, H|lra].
Qed.

Lemma trunc_neg x z : (z <= 0)%Z -> IZR z - 1 < x <= IZR z -> Rtrunc x = z.
Proof.
  intros Hz H. unfold Rtrunc. destruct (Rle_dec 0 x) as [P|P].
  - assert (IZR z <= 0) by (apply IZR_le; exact Hz). assert (x = 0) by lra. assert (IZR z = 0) by lra. apply (eq_IZR z 0) in H2. subst. apply int_part_eq. cbn. lra.
  - rewrite (int_part_eq (- x) (- z)); [lia|]. rewrite opp_IZR. lra.
Qed.

(** [p / m] as a quotient and a fraction of the sign of [p] *)
Lemma quot_facts p m : (0 < m)%Z -> IZR p / IZR m = IZR (Z.quot p m) + IZR (Z.rem p m) / IZR m
  /\ ((0 <= p)%Z -> (0 <= Z.rem p m < m)%Z /\ (0 <= Z.quot p m)%Z) /\ ((p <= 0)%Z -> (- m < Z.rem p m <= 0)%Z /\ (Z.quot p m <= 0)%Z).
Proof.
  intros Hm. assert (Pm : 0 < IZR m) by (apply IZR_lt; exact Hm). split; [|split].
  - pose proof (Z.quot_rem' p m) as D. apply (f_equal IZR) in D. rewrite plus_IZR, mult_IZR in D. revert D.
    generalize (IZR (Z.quot p m)) (IZR (Z.rem p m)). intros x y ->. field. lra.
  - intros Hp. split; [apply Z.rem_bound_pos; lia|apply Z.quot_pos; lia].
  - intros Hp. pose proof (Z.rem_bound_pos (- p) m ltac:(lia) ltac:(lia)) as B. rewrite Z.rem_opp_l in B by lia.
    pose proof (Z.quot_pos (- p) m ltac:(lia) ltac:(lia)) as Q. rewrite Z.quot_opp_l in Q by lia. lia.
Qed.

Lemma near_cell p m v : (0 < m)%Z -> Rabs (v - IZR p / IZR m) < 1 / IZR m ->
  (Z.rem p m <> 0%Z -> Rtrunc v = Z.quot p m)
  /\ (Z.rem p m = 0%Z -> Rtrunc v = Z.quot p m \/ Rtrunc v = (Z.quot p m - Z.sgn (Z.quot p m))%Z).
Proof.
  intros Hm Hv. assert (Pm : 0 < IZR m) by (apply IZR_lt; exact Hm). destruct (quot_facts p m Hm) as (E & Pos & Neg).
  rewrite E in Hv. apply Rabs_def2 in Hv as [V1 V2]. set (q := Z.quot p m) in *. set (r := Z.rem p m) in *.
  assert (M : forall a b, (a <= b)%Z -> IZR a / IZR m <= IZR b / IZR m).
  { intros a b H. apply Rmult_le_compat_r; [left; apply Rinv_0_lt_compat, Pm|]. apply IZR_le, H. }
  assert (One : IZR m / IZR m = 1) by (field; lra). assert (M1 : 1 / IZR m <= 1) by (apply (Rle_trans _ (IZR m / IZR m)); [apply (M 1%Z m); lia|lra]).
  assert (Split : forall a, IZR a / IZR m + 1 / IZR m = IZR (a + 1) / IZR m) by (intros a; rewrite plus_IZR; field; lra).
  assert (Split' : forall a, IZR a / IZR m - 1 / IZR m = IZR (a - 1) / IZR m) by (intros a; rewrite minus_IZR; field; lra).
  assert (Z0 : 0 / IZR m = 0) by (field; lra). split; intros Hr.
  - destruct (Z_le_gt_dec 0 p) as [P|P].
    + destruct (Pos P) as [R1 R2]. apply trunc_pos; [exact R2|].
      pose proof (M 1%Z r ltac:(lia)). pose proof (M (r + 1)%Z m ltac:(lia)). specialize (Split r). lra.
    + destruct (Neg ltac:(lia)) as [R1 R2]. apply trunc_neg; [exact R2|].
      pose proof (M r (-1)%Z ltac:(lia)). pose proof (M (- m)%Z (r - 1)%Z ltac:(lia)) as Q. specialize (Split' r).
      rewrite opp_IZR in Q. replace (- IZR m / IZR m) with (-1) in Q by (field; lra). replace (-1 / IZR m) with (- (1 / IZR m)) in H by (field; lra). lra.
  - rewrite Hr in V1, V2. rewrite Z0 in V1, V2. destruct (Z.lt_trichotomy q 0) as [Q|[Q|Q]].
    + rewrite (Z.sgn_neg q Q). destruct (Rle_dec v (IZR q)) as [L|L].
      * left. apply trunc_neg; [lia|]. lra.
      * right. replace (q - -1)%Z with (q + 1)%Z by lia. apply trunc_neg; [lia|]. rewrite plus_IZR. lra.
    + rewrite Q. cbn. left. rewrite Q in V1, V2. destruct (Rle_dec 0 v); [apply trunc_pos|apply trunc_neg]; try lia; cbn; lra.
    + rewrite (Z.sgn_pos q Q). destruct (Rle_dec (IZR q) v) as [L|L].
      * left. apply trunc_pos; [lia|]. lra.
      * right. apply trunc_pos; [lia|]. rewrite minus_IZR. lra.
Qed.

Lemma pow24 : 2 ^ 24 = IZR (2 ^ 24)%Z.
Proof. exact (pow_IZR 2 24). Qed.

Lemma rounded_cell (rnd : R -> R) (a b : Z) (m i : nat) : (forall x, Rabs (rnd x - x) <= / 2 ^ 53 * Rabs x) ->
  (i < m)%nat -> (Z.abs (b - a) <= Z.of_nat m)%Z -> (Z.of_nat m <= 2 ^ 24)%Z -> (Z.abs a <= 2 ^ 24)%Z ->
  Rabs (rnd (IZR a + rnd (INR i * rnd ((IZR b - IZR a) / INR m))) - IZR (a * Z.of_nat m + Z.of_nat i * (b - a)) / IZR (Z.of_nat m)) < 1 / IZR (Z.of_nat m).
Proof.
  intros Hr Hi Hb Hm Ha. set (u := / 2 ^ 53) in *. assert (Pu : 0 < u) by (apply Rinv_0_lt_compat, pow_lt; lra).
  set (M := INR m). assert (EM : IZR (Z.of_nat m) = M) by (symmetry; apply INR_IZR_INZ). assert (PM : 1 <= M) by (apply (le_INR 1); lia).
  assert (M24 : M <= 2 ^ 24) by (rewrite <- EM; rewrite pow24; apply IZR_le; exact Hm).
  assert (A24 : Rabs (IZR a) <= 2 ^ 24) by (rewrite <- abs_IZR; rewrite pow24; apply IZR_le; exact Ha).
  set (I := INR i). assert (PI0 : 0 <= I) by apply pos_INR. assert (IM : I <= M) by (apply le_INR; lia).
  set (d := (IZR b - IZR a) / M). assert (D1 : Rabs d <= 1).
  { unfold d, Rdiv. rewrite Rabs_mult, (Rabs_right (/ M)) by (left; apply Rinv_0_lt_compat; lra). rewrite <- minus_IZR, <- abs_IZR.
    apply Rmult_le_reg_r with M; [lra|]. rewrite Rmult_assoc, Rinv_l, Rmult_1_r, Rmult_1_l by lra. rewrite <- EM. apply IZR_le. exact Hb. }
  replace (IZR (a * Z.of_nat m + Z.of_nat i * (b - a)) / IZR (Z.of_nat m)) with (IZR a + I * d)
    by (rewrite plus_IZR, !mult_IZR, minus_IZR, <- !INR_IZR_INZ; fold M I; unfold d; field; lra).
  rewrite EM. set (d1 := rnd d). set (p1 := rnd (I * d1)). set (s1 := rnd (IZR a + p1)).
  assert (Bd : Rabs (d1 - d) <= u) by (eapply Rle_trans; [apply Hr|]; fold u; rewrite <- (Rmult_1_r u) at 2; apply Rmult_le_compat_l; lra).
  assert (U1 : u <= 1) by (unfold u; rewrite <- Rinv_1; apply Rinv_le_contravar; [lra|]; apply pow_R1_Rle; lra).
  assert (Bd1 : Rabs d1 <= 1 + u) by (replace d1 with (d + (d1 - d)) by ring; eapply Rle_trans; [apply Rabs_triang|]; lra).
  assert (BId : Rabs (I * d1) <= 2 * M).
  { rewrite Rabs_mult, (Rabs_right I) by lra. apply Rle_trans with (M * 2); [|lra]. apply Rmult_le_compat; try lra. apply Rabs_pos. }
  assert (Bp : Rabs (p1 - I * d) <= 3 * M * u).
  { replace (p1 - I * d) with ((p1 - I * d1) + I * (d1 - d)) by ring. eapply Rle_trans; [apply Rabs_triang|].
    assert (Rabs (p1 - I * d1) <= u * (2 * M)) by (eapply Rle_trans; [apply Hr|]; fold u; apply Rmult_le_compat_l; lra).
    assert (Rabs (I * (d1 - d)) <= M * u) by (rewrite Rabs_mult, (Rabs_right I) by lra; apply Rmult_le_compat; try lra; apply Rabs_pos). lra. }
  assert (BIdd : Rabs (I * d) <= M) by (rewrite Rabs_mult, (Rabs_right I) by lra; rewrite <- (Rmult_1_r M); apply Rmult_le_compat; try lra; apply Rabs_pos).
  assert (Bs : Rabs (IZR a + p1) <= 2 ^ 24 + 4 * M).
  { replace (IZR a + p1) with (IZR a + (I * d + (p1 - I * d))) by ring. eapply Rle_trans; [apply Rabs_triang|].
    assert (Rabs (I * d + (p1 - I * d)) <= M + 3 * M * u) by (eapply Rle_trans; [apply Rabs_triang|]; lra).
    assert (3 * M * u <= 3 * M * 1) by (apply Rmult_le_compat_l; lra). lra. }
  assert (Bf : Rabs (s1 - (IZR a + I * d)) <= u * (2 ^ 24 + 7 * M)).
  { replace (s1 - (IZR a + I * d)) with ((s1 - (IZR a + p1)) + (p1 - I * d)) by ring. eapply Rle_trans; [apply Rabs_triang|].
    assert (Rabs (s1 - (IZR a + p1)) <= u * (2 ^ 24 + 4 * M)) by (eapply Rle_trans; [apply Hr|]; fold u; apply Rmult_le_compat_l; lra). lra. }
  eapply Rle_lt_trans; [exact Bf|]. apply Rmult_lt_reg_r with M; [lra|]. replace (1 / M * M) with 1 by (field; lra).
  apply Rle_lt_trans with (u * (8 * 2 ^ 24) * 2 ^ 24).
  - apply Rmult_le_compat; try lra; [apply Rmult_le_pos; lra|]. apply Rmult_le_compat_l; lra.
  - unfold u. replace (2 ^ 53) with (2 ^ 24 * 2 ^ 24 * 32) by ring. assert (0 < 2 ^ 24) by (apply pow_lt; lra).
    replace (/ (2 ^ 24 * 2 ^ 24 * 32) * (8 * 2 ^ 24) * 2 ^ 24) with (/ 4) by (field; lra). lra.
Qed.

Lemma rounded_line (rnd : R -> R) a b m i : (forall x, Rabs (rnd x - x) <= / 2 ^ 53 * Rabs x) ->
  (i < m)%nat -> (Z.abs (b - a) <= Z.of_nat m)%Z -> (Z.of_nat m <= 2 ^ 24)%Z -> (Z.abs a <= 2 ^ 24)%Z ->
  let cell := Rtrunc (rnd (IZR a + rnd (INR i * rnd ((IZR b - IZR a) / INR m)))) in
  cell = line_index a b m i
  \/ (Z.divide (Z.of_nat m) (Z.of_nat i * (b - a)) /\ cell = (line_index a b m i - Z.sgn (line_index a b m i))%Z).
Proof.
  intros Hr Hi Hb Hm Ha cell.
  destruct (near_cell (a * Z.of_nat m + Z.of_nat i * (b - a)) (Z.of_nat m) _ ltac:(lia) (rounded_cell rnd a b m i Hr Hi Hb Hm Ha)) as [N1 N2].
  fold cell in N1, N2. unfold line_index. destruct (Z.eq_dec (Z.rem (a * Z.of_nat m + Z.of_nat i * (b - a)) (Z.of_nat m)) 0) as [E|E].
  - destruct (N2 E) as [H|H]; [left; exact H|]. right. split; [|exact H]. apply Z.rem_divide in E; [|lia].
    apply (Z.divide_add_cancel_r _ (a * Z.of_nat m)); [apply Z.divide_factor_r|exact E].
  - left. exact (N1 E).
Qed.

Lemma nearest_error x : Rabs (Generic_fmt.round Zaux.radix2 (FLX.FLX_exp 53) (Generic_fmt.Znearest (fun z => negb (Z.even z))) x - x) <= / 2 ^ 53 * Rabs x.
Proof.
  eapply Rle_trans; [apply Relative.relative_error_N_FLX; reflexivity|]. apply Rmult_le_compat_r; [apply Rabs_pos|].
  right. cbn. replace (2 ^ 53) with (IZR (2 ^ 53)%Z) by (symmetry; exact (pow_IZR 2 53)). cbn. lra.
Qed.
