From Coq Require Import Reals ZArith List Bool Lra Lia Permutation.
From Verif Require Import Base BaseLemmas Model_Units Model_Coeffs Model_FDTD Model_Register Model_Layout Spec_Layout Proof_Layout Model_Rounding Spec_Rounding Proof_Torch2 Proof_Torch3 Proof_Rounding.
Import ListNotations.
Open Scope R_scope.

Lemma trunc_bounds v : 0 <= v -> IZR (Rtrunc v) <= v < IZR (Rtrunc v) + 1.
Proof.
  intros H. unfold Rtrunc. destruct (Rle_dec 0 v); [|lra]. destruct (base_Int_part v). lra.
Qed.

Lemma trunc_mono v w : 0 <= v -> v <= w -> (Rtrunc v <= Rtrunc w)%Z.
Proof.
  intros H1 H2. pose proof (trunc_bounds v H1). pose proof (trunc_bounds w ltac:(lra)).
  apply Z.lt_succ_r, lt_IZR. rewrite succ_IZR. lra.
Qed.

Lemma near_floor v x d z : 0 <= v -> IZR z <= x < IZR z + 1 -> Rabs (v - x) <= d -> d <= 1 / 4 ->
  (Z.abs (Rtrunc v - z) <= 1)%Z /\ (Rtrunc v <> z -> exists k, Rabs (x - IZR k) <= d).
Proof.
  intros V X H D. apply Rabs_le_between in H. pose proof (trunc_bounds v V) as B.
  assert (U : (Rtrunc v <= z + 1)%Z) by (apply Z.lt_succ_r, lt_IZR; rewrite succ_IZR, plus_IZR; lra).
  assert (L : (z - 1 <= Rtrunc v)%Z) by (apply Z.lt_succ_r, lt_IZR; rewrite succ_IZR, minus_IZR; lra).
  split; [lia|]. intros N. destruct (Z.lt_total (Rtrunc v) z) as [C|[C|C]]; [|contradiction|].
  - exists z. replace (Rtrunc v) with (z - 1)%Z in B by lia. rewrite minus_IZR in B. apply Rabs_le. lra.
  - exists (z + 1)%Z. replace (Rtrunc v) with (z + 1)%Z in B by lia. rewrite plus_IZR in *. apply Rabs_le. lra.
Qed.

Lemma Rfloor_bounds x : IZR (Rfloor x) <= x < IZR (Rfloor x) + 1.
Proof. unfold Rfloor. destruct (base_Int_part x). lra. Qed.

Lemma column_bounds c x : 0 <= f_scaling c * x -> IZR (Z.of_nat (column c x)) <= f_scaling c * x < IZR (Z.of_nat (column c x)) + 1.
Proof.
  intros H. unfold column. pose proof (Rfloor_bounds (f_scaling c * x)) as B.
  assert (0 <= Rfloor (f_scaling c * x))%Z by (apply Z.lt_succ_r, lt_IZR; rewrite succ_IZR; lra). rewrite Z2Nat.id by assumption. exact B.
Qed.

Lemma firstn_sum_pos T k : Forall (fun t => 0 < t) T -> 0 <= Rsum (firstn k T) <= Rsum T.
Proof.
  intros H. revert k. induction H as [|t T Ht _ IH]; intros [|k]; cbn [firstn]; rewrite ?Rsum_cons.
  - unfold Rsum; cbn; lra. - unfold Rsum; cbn; lra. - pose proof (IH 0%nat) as Q. cbn in Q. change (Rsum []) with 0 in *. lra.
  - specialize (IH k). lra.
Qed.

Section Rounded.
  Variables (add mul : R -> R -> R) (e d : R) (c : fdtd_cfg).
  Hypothesis A : accurate add mul e.
  Hypothesis E0 : 0 <= e.
  Hypothesis P : proper c.
  Hypothesis Hp : 1 <= f_scaling c * f_pml c.
  Hypothesis S1 : 2 * INR (length (f_thick c) + 6) * e * extent c <= d.
  Hypothesis D : d <= 1 / 4.

  Let s := f_scaling c.
  Let N := length (f_thick c).
  Let W := extent c.

  Lemma positives : 0 < s /\ 0 < f_pml c /\ 0 < f_free c /\ 0 <= Rsum (f_thick c).
  Proof.
    repeat split; [apply pr_scaling, P|apply pr_pml, P|apply pr_free, P|]. apply (firstn_sum_pos (f_thick c) 0), pr_thick, P.
  Qed.

  Lemma W_eq : W = 2 * (s * (f_pml c + f_free c)) + s * Rsum (f_thick c).
  Proof. unfold W, extent. fold s. ring. Qed.
  Lemma parts : 0 < s * f_free c /\ 0 <= s * Rsum (f_thick c) /\ 2 <= W.
  Proof.
    destruct positives as (Hs & H1 & H2 & H3). assert (0 < s * f_free c) by (apply Rmult_lt_0_compat; assumption).
    assert (0 <= s * Rsum (f_thick c)) by (apply Rmult_le_pos; lra). rewrite W_eq, Rmult_plus_distr_l. fold s in Hp. lra.
  Qed.

  Lemma e_small : 2 * INR (N + 6) * e <= 1 / 8 /\ e <= 1.
  Proof.
    destruct parts as (_ & _ & HW). fold N W in S1. assert (N6 : 6 <= INR (N + 6)) by (change 6 with (INR 6) at 1 || (replace 6 with (INR 6) at 1 by (cbn; lra)); apply le_INR; lia).
    assert (2 * INR (N + 6) * e * 2 <= 2 * INR (N + 6) * e * W).
    { apply Rmult_le_compat_l; [|exact HW]. apply Rmult_le_pos; [lra|exact E0]. }
    split; [lra|]. assert (6 * e <= INR (N + 6) * e) by (apply Rmult_le_compat_r; assumption). lra.
  Qed.

  Lemma close n v x : (n <= N + 4)%nat -> 0 <= x <= W -> approx e n v x -> 0 <= v /\ Rabs (v - x) <= d.
  Proof.
    intros Hn [X XW] H. destruct e_small as [ES E1]. split; [exact (approx_pos e E1 n v x X H)|].
    assert (Hn' : INR n <= INR (N + 6)) by (apply le_INR; lia).
    assert (B : 2 * INR n * e <= 2 * INR (N + 6) * e) by (apply Rmult_le_compat_r; lra).
    eapply Rle_trans; [apply (approx_abs e E0 E1 n v x); [exact X|lra|exact H]|]. eapply Rle_trans; [|exact S1]. fold N W.
    apply Rmult_le_compat; try lra. apply Rmult_le_pos; [apply Rmult_le_pos; [lra|apply pos_INR]|exact E0].
  Qed.

  Lemma base_approx : approx e 1 (add (f_pml c) (f_free c)) (f_pml c + f_free c).
  Proof.
    destruct positives as (_ & H1 & H2 & _). destruct e_small as [_ E1]. apply (approx_add add mul e E0 E1 A); try lra; apply approx_refl.
  Qed.

  Lemma start_approx k : (k <= N)%nat -> approx e (1 + k) (start_at add c k) (layer_begin c k).
  Proof.
    intros Hk. destruct e_small as [_ E1]. destruct positives as (_ & H1 & H2 & _). unfold start_at, layer_begin.
    apply (approx_walk add mul e E0 E1 A); [apply pr_thick, P|lra|exact base_approx|exact Hk].
  Qed.

  Lemma begin_range k : 0 <= layer_begin c k /\ 0 <= position c k /\ position c k <= W - s * (f_pml c + f_free c).
  Proof.
    destruct positives as (Hs & H1 & H2 & H3). unfold position, layer_begin. fold s. pose proof (firstn_sum_pos (f_thick c) k (pr_thick c P)) as [Q1 Q2].
    split; [lra|]. split; [apply Rmult_le_pos; lra|]. rewrite W_eq. replace (2 * (s * (f_pml c + f_free c)) + s * Rsum (f_thick c) - s * (f_pml c + f_free c)) with (s * (f_pml c + f_free c + Rsum (f_thick c))) by ring.
    apply Rmult_le_compat_l; lra.
  Qed.

  Lemma base_pos : 1 < s * (f_pml c + f_free c).
  Proof. destruct parts as (H & _). rewrite Rmult_plus_distr_l. fold s in Hp. lra. Qed.

  Definition edge_value (k : nat) : R := mul s (start_at add c k).
  Lemma edge_close k : (k <= N)%nat -> 0 <= edge_value k /\ Rabs (edge_value k - position c k) <= d.
  Proof.
    intros Hk. destruct e_small as [_ E1]. destruct (begin_range k) as (B1 & B2 & B3). pose proof base_pos. destruct positives as (Hs & _).
    apply (close (S (1 + k))); [lia|lra|]. unfold edge_value, position. fold s.
    apply (approx_mul add mul e E0 E1 A); [lra|exact B1|apply start_approx, Hk].
  Qed.

  Lemma edge_cell k : (k <= N)%nat -> (Z.abs (Rtrunc (edge_value k) - Z.of_nat (edge c k)) <= 1)%Z
    /\ (Rtrunc (edge_value k) <> Z.of_nat (edge c k) -> exists z, Rabs (position c k - IZR z) <= d).
  Proof.
    intros Hk. destruct (edge_close k Hk) as [H1 H2]. destruct (begin_range k) as (_ & B2 & _).
    apply (near_floor _ (position c k)); [exact H1| |exact H2|exact D]. unfold edge. apply column_bounds. exact B2.
  Qed.

  Lemma det_range : 1 <= IZR (f_det c) <= s * f_free c.
  Proof. split; [apply (IZR_le 1), pr_det, P|apply pr_room, P]. Qed.

  Lemma total_position : position c N = s * (f_pml c + f_free c + Rsum (f_thick c)).
  Proof. unfold position, layer_begin, N. rewrite firstn_all. reflexivity. Qed.

  Lemma det_nat : Z.of_nat (Z.to_nat (f_det c)) = f_det c.
  Proof. apply Z2Nat.id. pose proof (pr_det c P). lia. Qed.

  Section Total.
    Variable total : R.
    Hypothesis T : summed add (f_thick c) total.

    Lemma total_approx : approx e N total (Rsum (f_thick c)).
    Proof. destruct e_small as [_ E1]. apply (summed_pos add mul e E0 E1 A); [apply pr_thick, P|exact T]. Qed.

    Definition transmission_value := add (mul (add (add (f_pml c) (f_free c)) total) s) (IZR (f_det c)).
    Lemma transmission_close : 0 <= transmission_value /\ Rabs (transmission_value - (position c N + IZR (f_det c))) <= d.
    Proof.
      destruct e_small as [_ E1]. destruct positives as (Hs & H1 & H2 & H3). destruct (begin_range N) as (_ & B2 & B3). pose proof det_range as DR.
      assert (PS : s * f_free c <= s * (f_pml c + f_free c)) by (apply Rmult_le_compat_l; lra).
      apply (close (S (S (S (S N))))); [lia|lra|]. unfold transmission_value. apply (approx_add add mul e E0 E1 A); [exact B2|lra| |].
      - rewrite total_position. apply (approx_mul add mul e E0 E1 A); [lra|lra|]. apply (approx_add add mul e E0 E1 A); [lra|lra| |].
        + apply (approx_weaken e E0 E1 1); [lra|lia|exact base_approx].
        + apply (approx_weaken e E0 E1 N); [lra|lia|exact total_approx].
      - apply (approx_weaken e E0 E1 0); [lra|lia|apply approx_refl].
    Qed.

    Definition columns_value := mul s (add (add (mul (f_pml c) 2) (mul (f_free c) 2)) total).
    Lemma columns_close : 0 <= columns_value /\ Rabs (columns_value - W) <= d.
    Proof.
      destruct e_small as [_ E1]. destruct positives as (Hs & H1 & H2 & H3). destruct parts as (_ & _ & HW).
      apply (close (S (S (S N)) + 1)); [lia|lra|]. rewrite Nat.add_1_r. unfold columns_value, W, extent. fold s.
      apply (approx_mul add mul e E0 E1 A); [lra|lra|]. apply (approx_add add mul e E0 E1 A); [lra|lra| |].
      - apply (approx_weaken e E0 E1 2); [lra|lia|]. apply (approx_add add mul e E0 E1 A); try lra;
          rewrite (Rmult_comm _ 2); apply (approx_mul add mul e E0 E1 A); try lra; apply approx_refl.
      - apply (approx_weaken e E0 E1 N); [lra|lia|exact total_approx].
    Qed.

    Lemma transmission_facts : (Rtrunc (edge_value N) <= Rtrunc transmission_value)%Z
      /\ (Z.abs (Rtrunc transmission_value - Z.of_nat (transmission_column c)) <= 1)%Z
      /\ (Z.abs (Rtrunc columns_value - Z.of_nat (columns c)) <= 1)%Z
      /\ (2 <= s * f_pml c -> (Rtrunc transmission_value < Rtrunc columns_value)%Z).
    Proof.
      destruct (edge_close N ltac:(lia)) as [V1 V2]. destruct transmission_close as [T1 T2]. destruct columns_close as [C1 C2].
      pose proof det_range as DR. destruct (begin_range N) as (_ & B2 & _). apply Rabs_le_between in V2. pose proof T2 as T3. apply Rabs_le_between in T3. pose proof C2 as C3. apply Rabs_le_between in C3.
      destruct positives as (Hs & H1 & H2 & H3). destruct parts as (PF & _ & HW). split; [|split; [|split]].
      - apply trunc_mono; lra.
      - apply (near_floor _ (position c N + IZR (f_det c)) d); [exact T1| |exact T2|exact D].
        unfold transmission_column. rewrite Nat2Z.inj_add, det_nat, plus_IZR. unfold material_end, edge. fold N.
        pose proof (column_bounds c (layer_begin c N) B2). unfold position in *. lra.
      - apply (near_floor _ W d); [exact C1| |exact C2|exact D]. unfold columns.
        assert (EQ : f_scaling c * (f_pml c + f_free c + Rsum (f_thick c) + f_free c + f_pml c) = W) by (unfold W, extent; ring).
        rewrite <- EQ. apply column_bounds. rewrite EQ. lra.
      - intros H. pose proof (trunc_bounds _ T1). pose proof (trunc_bounds _ C1). apply lt_IZR.
        rewrite total_position in *. rewrite W_eq in C3.
        replace (s * (f_pml c + f_free c + Rsum (f_thick c))) with (s * f_pml c + s * f_free c + s * Rsum (f_thick c)) in T3 by ring.
        rewrite Rmult_plus_distr_l in C3. lra.
    Qed.
  End Total.

  Definition reflection_value := add (mul (add (f_pml c) (f_free c)) s) (- IZR (f_det c)).
  Lemma reflection_close : 0 <= reflection_value /\ Rabs (reflection_value - (position c 0 - IZR (f_det c))) <= d.
  Proof.
    destruct e_small as [ES E1]. destruct positives as (Hs & H1 & H2 & H3). pose proof det_range as DR. destruct parts as (PF & PT & HW).
    assert (E6 : 6 * e <= INR (N + 6) * e).
    { apply Rmult_le_compat_r; [exact E0|]. replace 6 with (INR 6) at 1 by (cbn; lra). apply le_INR. lia. }
    assert (E6W : 12 * e * W <= 2 * INR (N + 6) * e * W) by (apply Rmult_le_compat_r; lra). fold N W in S1.
    assert (P0 : position c 0 = s * (f_pml c + f_free c)) by (unfold position, layer_begin; cbn; fold s; unfold Rsum; cbn; ring).
    assert (PW : 2 * position c 0 <= W) by (rewrite P0, W_eq; lra).
    assert (Q : approx e 2 (mul (add (f_pml c) (f_free c)) s) (position c 0)).
    { rewrite P0. apply (approx_mul add mul e E0 E1 A); [lra|lra|exact base_approx]. }
    assert (PB : s * f_pml c + s * f_free c = position c 0) by (rewrite P0; ring). fold s in Hp.
    assert (Q' : Rabs (mul (add (f_pml c) (f_free c)) s - position c 0) <= 2 * INR 2 * e * position c 0) by (apply (approx_abs e E0 E1); [lra|cbn; lra|exact Q]).
    pose proof (proj1 A (mul (add (f_pml c) (f_free c)) s) (- IZR (f_det c))) as Ha. fold reflection_value in Ha.
    set (v := mul (add (f_pml c) (f_free c)) s) in *. replace (2 * INR 2) with 4 in Q' by (cbn; lra).
    assert (Q4 : 4 * e * position c 0 <= 2 * e * W).
    { replace (4 * e * position c 0) with (2 * e * (2 * position c 0)) by ring. apply Rmult_le_compat_l; lra. }
    assert (eW : 0 <= e * W) by (apply Rmult_le_pos; lra).
    apply Rabs_le_between in Q'. assert (V1 : Rabs (v + - IZR (f_det c)) <= 2 * W) by (apply Rabs_le; lra).
    assert (V2 : e * Rabs (v + - IZR (f_det c)) <= e * (2 * W)) by (apply Rmult_le_compat_l; assumption).
    apply Rabs_le_between in Ha. assert (F : - d <= reflection_value - (position c 0 - IZR (f_det c)) <= d) by lra.
    split; [lra|apply Rabs_le; exact F].
  Qed.

  Lemma reflection_facts : (Z.abs (Rtrunc reflection_value - Z.of_nat (reflection_column c)) <= 1)%Z
    /\ ((2 <= f_det c)%Z -> (Rtrunc reflection_value < Rtrunc (edge_value 0))%Z).
  Proof.
    destruct reflection_close as [R1 R2]. destruct (edge_close 0 ltac:(lia)) as [V1 V2]. pose proof det_range as DR. destruct (begin_range 0) as (_ & B2 & _).
    assert (P0 : position c 0 = s * f_pml c + s * f_free c) by (unfold position, layer_begin; cbn; fold s; unfold Rsum; cbn; ring). fold s in Hp.
    split.
    - apply (near_floor _ (position c 0 - IZR (f_det c)) d); [exact R1| |exact R2|exact D]. unfold reflection_column, edge.
      pose proof (column_bounds c (layer_begin c 0) B2) as CB. fold (position c 0) in CB.
      assert (Z.to_nat (f_det c) <= column c (layer_begin c 0))%nat.
      { apply Nat2Z.inj_le. rewrite det_nat. apply Z.lt_succ_r, lt_IZR. rewrite succ_IZR. lra. }
      rewrite Nat2Z.inj_sub, det_nat, minus_IZR by assumption. lra.
    - intros H2. apply (IZR_le 2) in H2. apply Rabs_le_between in V2, R2. pose proof (trunc_bounds _ R1). pose proof (trunc_bounds _ V1). apply lt_IZR. lra.
  Qed.

  Lemma rounded_layout : exists p : nat -> Z,
    (forall n, (n <= length (f_thick c))%nat -> f_thick c <> [] -> exists es, object_columns add mul c n = Ok es /\ length es = n
       /\ forall k, (k < n)%nat -> nth_error es k = Some (p k, p (S k)))
    /\ (forall k, (k <= length (f_thick c))%nat -> (Z.abs (p k - Z.of_nat (edge c k)) <= 1)%Z
          /\ (p k <> Z.of_nat (edge c k) -> exists z, Rabs (position c k - IZR z) <= d))
    /\ (Z.abs (reflection_at add mul c - Z.of_nat (reflection_column c)) <= 1)%Z
    /\ ((2 <= f_det c)%Z -> (reflection_at add mul c < p 0%nat)%Z)
    /\ forall total, summed add (f_thick c) total ->
         (p (length (f_thick c)) <= transmission_at add mul c total)%Z
         /\ (Z.abs (transmission_at add mul c total - Z.of_nat (transmission_column c)) <= 1)%Z
         /\ (Z.abs (columns_at add mul c total - Z.of_nat (columns c)) <= 1)%Z
         /\ (2 <= f_scaling c * f_pml c -> (transmission_at add mul c total < columns_at add mul c total)%Z).
  Proof.
    exists (fun k => Rtrunc (edge_value k)). split; [|split; [|split; [|split]]].
    - intros n Hn Hne. destruct (object_columns_ok add mul c n Hn Hne) as [es He]. exists es. split; [exact He|]. exact (object_columns_walk add mul c n es He).
    - intros k Hk. exact (edge_cell k Hk).
    - exact (proj1 reflection_facts).
    - exact (proj2 reflection_facts).
    - intros total Ht. exact (transmission_facts total Ht).
  Qed.
End Rounded.

(** * Order *)
Lemma walk_ordered (rnd : R -> R) T : (forall x y, x <= y -> rnd x <= rnd y) -> (forall x, rnd (rnd x) = rnd x) -> Forall (fun t => 0 < t) T ->
  forall k z, let add x y := rnd (x + y) in walk add (rnd z) T k <= walk add (rnd z) T (S k).
Proof.
  intros M I F. induction F as [|t T Ht _ IH]; intros k z add.
  - destruct k; cbn; lra.
  - destruct k as [|k].
    + cbn. unfold add. rewrite <- (I z) at 1. apply M. lra.
    + exact (IH k (rnd z + t)).
Qed.

Lemma walk_pos (rnd : R -> R) T : (forall x y, x <= y -> rnd x <= rnd y) -> (forall x, rnd (rnd x) = rnd x) -> Forall (fun t => 0 < t) T ->
  forall k z, let add x y := rnd (x + y) in rnd z <= walk add (rnd z) T k.
Proof.
  intros M I F k. induction k as [|k IH]; intros z add; [cbn; lra|].
  eapply Rle_trans; [exact (IH z)|]. apply walk_ordered; assumption.
Qed.

Lemma ordered (rnd : R -> R) c n es k a b : (forall x y, x <= y -> rnd x <= rnd y) -> (forall x, rnd (rnd x) = rnd x) -> rnd 0 = 0 ->
  0 < f_scaling c -> 0 <= f_pml c + f_free c -> Forall (fun t => 0 < t) (f_thick c) ->
  object_columns (fun x y => rnd (x + y)) (fun x y => rnd (x * y)) c n = Ok es -> nth_error es k = Some (a, b) -> (a <= b)%Z.
Proof.
  intros M I Z S B F H E. destruct (object_columns_walk _ _ c n es H) as [L V].
  assert (k < n)%nat by (rewrite <- L; apply nth_error_Some; congruence). rewrite (V k) in E by assumption. injection E as <- <-.
  assert (B0 : 0 <= rnd (f_pml c + f_free c)) by (rewrite <- Z; apply M, B).
  assert (W0 : 0 <= start_at (fun x y => rnd (x + y)) c k) by (eapply Rle_trans; [exact B0|]; apply (walk_pos rnd _ M I F k (f_pml c + f_free c))).
  apply trunc_mono.
  - rewrite <- Z. apply M. apply Rmult_le_pos; lra.
  - apply M. apply Rmult_le_compat_l; [lra|]. apply (walk_ordered rnd _ M I F k (f_pml c + f_free c)).
Qed.
