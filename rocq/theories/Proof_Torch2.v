From Coq Require Import Reals ZArith List Bool Lra Lia.
From Verif Require Import Base BaseLemmas Cplx Model_FDTD Model_Register Model_Torch Spec_Torch.
Import ListNotations.
Open Scope R_scope.

Lemma int_part_eq x z : IZR z <= x < IZR z + 1 -> Int_part x = z.
Proof.
  intros H. unfold Int_part. rewrite <- (tech_up x (z + 1)); [lia|rewrite plus_IZR; lra..].
Qed.

Lemma ceil_eq x z : IZR z - 1 < x <= IZR z -> Rceil x = z.
Proof. intros H. unfold Rceil. rewrite (int_part_eq (- x) (- z)); [lia|]. rewrite opp_IZR. lra. Qed.

Lemma evenly_steps a h n : evenly (map (fun i => a + INR i * h) (seq 0 n)) a h n.
Proof.
  split; [rewrite map_length, seq_length; reflexivity|]. intros i Hi. rewrite nth_error_map.
  rewrite (nth_error_nth' (seq 0 n) 0%nat) by (rewrite seq_length; exact Hi). rewrite seq_nth by exact Hi. reflexivity.
Qed.

Lemma evenly_repeat a n : evenly (repeat a n) a 0 n.
Proof.
  split; [apply repeat_length|]. intros i Hi. rewrite (nth_error_nth' _ a) by (rewrite repeat_length; exact Hi). rewrite nth_repeat. f_equal. ring.
Qed.

Lemma Rltb_spec a b : Rltb a b = true <-> a < b.
Proof. unfold Rltb. destruct (Rlt_dec a b); split; auto; discriminate. Qed.

Lemma arange_value a s h n : h <> 0 -> IZR (Z.of_nat n) - 1 < (s - a) / h <= IZR (Z.of_nat n) -> (1 <= n)%nat ->
  arange a s h = Ok (map (fun i => a + INR i * h) (seq 0 n)).
Proof.
  intros Hh Hc Hn. unfold arange. destruct (Req_EM_T h 0) as [E|_]; [contradiction|].
  assert (Pos : 0 < (s - a) / h) by (apply (IZR_le 1) in Hn || (assert (1 <= IZR (Z.of_nat n)) by (apply IZR_le; lia)); lra).
  set (q := (s - a) / h) in *. assert (Eq : s - a = q * h) by (unfold q; field; exact Hh).
  destruct (Rltb 0 h && Rltb s a) eqn:B1.
  { exfalso. apply andb_prop in B1 as [B1 B2]. apply Rltb_spec in B1, B2. assert (0 < q * h) by (apply Rmult_lt_0_compat; lra). lra. }
  destruct (Rltb h 0 && Rltb a s) eqn:B2.
  { exfalso. apply andb_prop in B2 as [B2 B3]. apply Rltb_spec in B2, B3. assert (0 < q * - h) by (apply Rmult_lt_0_compat; lra). lra. }
  fold q. rewrite (ceil_eq q (Z.of_nat n)) by lra. rewrite Nat2Z.id. reflexivity.
Qed.

Lemma linspace_zero a b e : backend_linspace a b (if e : bool then 1 else 0) e = Err ZeroDivisionError.
Proof. unfold backend_linspace. destruct (Req_EM_T _ 0) as [_|N]; [reflexivity|]. exfalso. apply N. destruct e; lra. Qed.

Lemma linspace_constant a n (e : bool) : n <> (if e then 1 else 0)%Z -> backend_linspace a a n e = Ok (repeat a (Z.to_nat n)).
Proof.
  intros N. unfold backend_linspace. destruct (Req_EM_T _ 0) as [E|NE].
  - exfalso. apply N. destruct e; apply eq_IZR; lra.
  - destruct (Req_EM_T _ 0) as [_|X]; [reflexivity|]. exfalso. apply X. field. exact NE.
Qed.

Lemma linspace_value a b n (e : bool) : ((if e then 1 else 0) < n)%Z ->
  exists l, backend_linspace a b n e = Ok l /\ evenly l a ((b - a) / (IZR n - (if e then 1 else 0))) (Z.to_nat n).
Proof.
  intros Hn. destruct (Req_EM_T a b) as [<-|Ne].
  - exists (repeat a (Z.to_nat n)). split; [apply linspace_constant; lia|].
    replace ((a - a) / (IZR n - (if e then 1 else 0))) with 0 by (unfold Rdiv; ring). apply evenly_repeat.
  - set (d := IZR n - (if e then 1 else 0)). assert (Pd : 1 <= d).
    { unfold d. destruct e; [assert (2 <= IZR n) by (apply IZR_le; lia)|assert (1 <= IZR n) by (apply IZR_le; lia)]; lra. }
    exists (map (fun i => a + INR i * ((b - a) / d)) (seq 0 (Z.to_nat n))). split; [|apply evenly_steps].
    assert (Nd : (b - a) / d <> 0).
    { intros E. apply Ne. assert (b - a = 0); [|lra]. replace (b - a) with ((b - a) / d * d) by (field; lra). rewrite E. ring. }
    unfold backend_linspace. fold d. destruct (Req_EM_T d 0); [lra|]. destruct (Req_EM_T _ 0); [contradiction|].
    apply arange_value; [exact Nd| |destruct e; lia]. rewrite Z2Nat.id by (destruct e; lia).
    replace ((b + 1 / 2 * (if e then 1 else 0) * ((b - a) / d) - a) / ((b - a) / d)) with (d + (if e then 1 / 2 else 0)).
    + unfold d. destruct e; lra.
    + destruct e; field; split; lra.
Qed.

Lemma linspace_few a b n (e : bool) : a <> b -> (n < if e then 1 else 0)%Z -> backend_linspace a b n e = Err RuntimeError.
Proof.
  intros Ne Hn. unfold backend_linspace. set (d := IZR n - (if e then 1 else 0)). assert (Pd : d <= -1).
  { unfold d. destruct e; [assert (IZR n <= 0) by (apply IZR_le; lia)|assert (IZR n <= -1) by (apply IZR_le; lia)]; lra. }
  destruct (Req_EM_T d 0); [lra|]. set (h := (b - a) / d). assert (Eh : b - a = h * d) by (unfold h; field; lra).
  assert (Nh : h <> 0) by (intros E; apply Ne; rewrite E in Eh; lra).
  destruct (Req_EM_T h 0) as [|_]; [contradiction|]. unfold arange. destruct (Req_EM_T h 0) as [|_]; [contradiction|].
  set (s := b + 1 / 2 * (if e then 1 else 0) * h).
  assert (Es : s - a = h * (d + (if e then 1 / 2 else 0))) by (unfold s; destruct e; lra).
  assert (Q : d + (if e then 1 / 2 else 0) < 0) by (destruct e; lra).
  set (q := d + (if e then 1 / 2 else 0)) in *. destruct (Rtotal_order h 0) as [H|[H|H]]; [|contradiction|].
  - assert (0 < h * q) by (replace (h * q) with ((- h) * (- q)) by ring; apply Rmult_lt_0_compat; lra).
    assert (B1 : Rltb 0 h = false) by (unfold Rltb; destruct (Rlt_dec 0 h); [lra|reflexivity]). rewrite B1. cbn [andb].
    rewrite (proj2 (Rltb_spec h 0) H), (proj2 (Rltb_spec a s)) by lra. reflexivity.
  - assert (0 < h * - q) by (apply Rmult_lt_0_compat; lra).
    rewrite (proj2 (Rltb_spec 0 h)), (proj2 (Rltb_spec s a)) by lra. reflexivity.
Qed.

Lemma trunc_quot p m : (0 < m)%Z -> Rtrunc (IZR p / IZR m) = Z.quot p m.
Proof.
  intros Hm. assert (Pm : 0 < IZR m) by (apply IZR_lt; exact Hm).
  assert (K : forall q, (0 <= q)%Z -> Int_part (IZR q / IZR m) = Z.quot q m).
  { intros q Hq. apply int_part_eq. pose proof (Z.quot_rem' q m) as D. pose proof (Z.rem_bound_pos q m Hq Hm) as B.
    apply (f_equal IZR) in D. rewrite plus_IZR, mult_IZR in D. destruct B as [B1 B2]. apply IZR_le in B1. apply IZR_lt in B2.
    replace (IZR q / IZR m) with (IZR (Z.quot q m) + IZR (Z.rem q m) / IZR m)
      by (revert D; generalize (IZR (Z.quot q m)) (IZR (Z.rem q m)); intros x y ->; field; lra).
    assert (0 <= IZR (Z.rem q m) / IZR m) by (apply Rmult_le_pos; [exact B1|left; apply Rinv_0_lt_compat, Pm]).
    assert (IZR (Z.rem q m) / IZR m < 1) by (apply Rmult_lt_reg_r with (IZR m); [exact Pm|]; unfold Rdiv; rewrite Rmult_assoc, Rinv_l by lra; lra). lra. }
  unfold Rtrunc. destruct (Rle_dec 0 (IZR p / IZR m)) as [H|H].
  - apply K. apply le_IZR. replace (IZR p) with (IZR p / IZR m * IZR m) by (field; lra). apply Rmult_le_pos; lra.
  - replace (- (IZR p / IZR m)) with (IZR (- p) / IZR m) by (rewrite opp_IZR; field; lra).
    rewrite K.
    + rewrite Z.quot_opp_l by lia. lia.
    + apply le_IZR. rewrite opp_IZR. assert (IZR p / IZR m < 0) by lra.
      assert (IZR p < 0); [|lra]. replace (IZR p) with (IZR p / IZR m * IZR m) by (field; lra). assert (0 < - (IZR p / IZR m) * IZR m) by (apply Rmult_lt_0_compat; lra). lra.
Qed.

Lemma line_positions a b m : (1 <= m)%nat -> exists l, backend_linspace (IZR a) (IZR b) (Z.of_nat m) false = Ok l
  /\ array_int l = map (line_index a b m) (seq 0 m).
Proof.
  intros Hm. destruct (linspace_value (IZR a) (IZR b) (Z.of_nat m) false) as (l & E & L & V); [lia|]. exists l. split; [exact E|].
  rewrite Nat2Z.id in *. unfold array_int. apply nth_ext with 0%Z 0%Z; rewrite !map_length, ?seq_length; [exact L|]. intros i Hi. rewrite L in Hi.
  rewrite (nth_indep _ 0%Z (Rtrunc 0)) by (rewrite map_length; lia). rewrite (map_nth Rtrunc), (nth_error_nth l i 0 (V i Hi)).
  rewrite (nth_indep _ 0%Z (line_index a b m 0)) by (rewrite map_length, seq_length; exact Hi). rewrite (map_nth (line_index a b m)), seq_nth by exact Hi. cbn [Nat.add].
  unfold line_index. rewrite <- trunc_quot by lia. f_equal. rewrite plus_IZR, !mult_IZR, minus_IZR, <- !INR_IZR_INZ. field.
  apply not_0_INR. lia.
Qed.
