(** Waves in a layered slab on the grid are the waves the transfer-matrix code solves for. *)
From Coq Require Import Reals String List Lia Lra.
From Verif Require Import Base PyVal Cplx CplxLemmas Model_TMM Spec_TMM Spec_Harmonic Proof_Harmonic3 Proof_Harmonic6 Proof_TMM16 Proof_Agree2 Spec_Slab.
Import ListNotations.
Open Scope R_scope.

Section Waves.
  Variable A : nat -> C.
  (** the wave to the right (for - ka: to the left) at the left edge of column x *)
  Definition fw (ka : R) (x : nat) : C :=
    ((0, - / (4 * sin (ka / 2)))%R * (Cis (ka / 2) * A x - Cis (- (ka / 2)) * A (x - 1)%nat))%C.

  Lemma two_cos ka : RtoC (2 * cos ka) = (Cis (ka / 2) * Cis (ka / 2) + Cis (- (ka / 2)) * Cis (- (ka / 2)))%C.
  Proof. rewrite <- !Cis_add. replace (ka / 2 + ka / 2) with ka by field. replace (- (ka / 2) + - (ka / 2)) with (- ka) by field.
    unfold Cis. rewrite cos_neg, sin_neg. apply Ceq; cbn; ring. Qed.

  Lemma fw_step ka x : (A (S x) + A (x - 1)%nat)%C = (RtoC (2 * cos ka) * A x)%C -> fw ka (S x) = (fw ka x * Cis ka)%C.
  Proof.
    intros E. unfold fw. replace (S x - 1)%nat with x by lia.
    replace (A (S x)) with (RtoC (2 * cos ka) * A x - A (x - 1)%nat)%C by (rewrite <- E; ring).
    rewrite two_cos. replace (Cis ka) with (Cis (ka / 2) * Cis (ka / 2))%C by (rewrite <- Cis_add; f_equal; field).
    set (e := Cis (ka / 2)). set (e' := Cis (- (ka / 2))). assert (P : (e * e')%C = C1) by (unfold e, e'; rewrite <- Cis_add, Rplus_opp_r; apply Cis_0).
    set (z := (0, _)). generalize (A x) (A (x - 1)%nat). intros y y'.
    transitivity (z * (e * e * e * y + (e * e') * e' * y - e * y' - e' * y))%C; [ring|].
    transitivity (z * (e * e * e * y - (e * e') * e * y'))%C; [|ring]. rewrite P. ring.
  Qed.
  Lemma fw_run ka x n : (forall y, (x <= y < x + n)%nat -> (A (S y) + A (y - 1)%nat)%C = (RtoC (2 * cos ka) * A y)%C) ->
    fw ka (x + n) = (fw ka x * Cis (ka * INR n))%C.
  Proof.
    induction n as [|n IH]; intros H.
    - rewrite Nat.add_0_r. cbn [INR]. rewrite Rmult_0_r, Cis_0. ring.
    - rewrite Nat.add_succ_r, fw_step by (apply H; lia). rewrite IH by (intros; apply H; lia).
      rewrite S_INR. replace (ka * (INR n + 1)) with (ka * INR n + ka) by ring. rewrite Cis_add. ring.
  Qed.
  Definition PP (x : nat) : C := (RtoC (/ 2) * (A x + A (x - 1)%nat))%C.
  Definition QQ (x : nat) : C := ((0, - / 2)%R * (A x - A (x - 1)%nat))%C.
  Lemma fw_sum ka x : sin (ka / 2) <> 0 -> (fw ka x + fw (- ka) x)%C = PP x.
  Proof.
    intros S. unfold fw, PP, Cis. replace (- ka / 2) with (- (ka / 2)) by field. rewrite Ropp_involutive, ?cos_neg, ?sin_neg.
    set (s := sin (ka / 2)) in *. set (c := cos (ka / 2)). destruct (A x), (A (x - 1)%nat). apply Ceq; cbn; field; exact S.
  Qed.
  Lemma fw_diff ka x : sin (ka / 2) <> 0 -> cos (ka / 2) <> 0 -> (RtoC (tan (ka / 2)) * (fw ka x - fw (- ka) x))%C = QQ x.
  Proof.
    intros S N. unfold fw, QQ, Cis, tan. replace (- ka / 2) with (- (ka / 2)) by field. rewrite Ropp_involutive, ?cos_neg, ?sin_neg.
    set (s := sin (ka / 2)) in *. set (c := cos (ka / 2)) in *. destruct (A x), (A (x - 1)%nat). apply Ceq; cbn; field; auto.
  Qed.
  Lemma fw_value k u v x : (1 <= x)%nat -> sin (k / 2) <> 0 -> A x = waves k u v x -> A (x - 1)%nat = waves k u v (x - 1) ->
    fw k x = (RtoC (cos (k / 2)) * u * Cis (k * (INR x - / 2)))%C.
  Proof.
    intros Hx S E1 E2. unfold fw. rewrite E1, E2. unfold waves. rewrite minus_INR by exact Hx. change (INR 1) with 1.
    set (y := k * (INR x - / 2)). replace (k * INR x) with (y + k / 2) by (unfold y; field). replace (k * (INR x - 1)) with (y - k / 2) by (unfold y; field).
    replace (- (y + k / 2)) with (- y + - (k / 2)) by ring. replace (- (y - k / 2)) with (- y + k / 2) by ring. unfold Rminus. rewrite !Cis_add.
    set (p := Cis y). set (p' := Cis (- y)).
    transitivity ((0, - / (4 * sin (k / 2)))%R * ((Cis (k / 2) * Cis (k / 2) - Cis (- (k / 2)) * Cis (- (k / 2))) * (u * p)))%C; [ring|].
    replace ((0, - / (4 * sin (k / 2)))%R * ((Cis (k / 2) * Cis (k / 2) - Cis (- (k / 2)) * Cis (- (k / 2))) * (u * p)))%C
      with (((0, - / (4 * sin (k / 2)))%R * (Cis (k / 2) * Cis (k / 2) - Cis (- (k / 2)) * Cis (- (k / 2)))) * (u * p))%C by ring.
    replace ((0, - / (4 * sin (k / 2)))%R * (Cis (k / 2) * Cis (k / 2) - Cis (- (k / 2)) * Cis (- (k / 2))))%C with (RtoC (cos (k / 2))); [ring|].
    unfold Cis. rewrite cos_neg, sin_neg. set (s := sin (k / 2)) in *. set (c := cos (k / 2)). apply Ceq; cbn; field; exact S.
  Qed.
  Lemma fw_value' k u v x : (1 <= x)%nat -> sin (k / 2) <> 0 -> A x = waves k u v x -> A (x - 1)%nat = waves k u v (x - 1) ->
    fw (- k) x = (RtoC (cos (k / 2)) * v * Cis (- (k * (INR x - / 2))))%C.
  Proof.
    intros Hx S E1 E2. assert (W : forall y, waves k u v y = waves (- k) v u y).
    { intros y. unfold waves. replace (- (- k * INR y)) with (k * INR y) by ring. replace (- k * INR y) with (- (k * INR y)) by ring. ring. }
    rewrite W in E1, E2. rewrite (fw_value (- k) v u x Hx); [|replace (- k / 2) with (- (k / 2)) by field; rewrite sin_neg; lra|exact E1|exact E2].
    replace (- k / 2) with (- (k / 2)) by field. rewrite cos_neg. f_equal. f_equal. ring.
  Qed.
End Waves.

Lemma grid_phase_spec k e : 0 < k < PI -> 0 < e -> sqrt e * sin (k / 2) < 1 ->
  0 < grid_phase k e < PI /\ sin (grid_phase k e / 2) = sqrt e * sin (k / 2) /\ 0 < sin (grid_phase k e / 2) /\ 0 < cos (grid_phase k e / 2).
Proof.
  intros K E H. assert (S : 0 < sin (k / 2)) by (apply sin_gt_0; lra). assert (Q := sqrt_lt_R0 e E).
  assert (Y : 0 < sqrt e * sin (k / 2)) by (apply Rmult_lt_0_compat; assumption).
  unfold grid_phase. set (y := sqrt e * sin (k / 2)) in *. replace (2 * asin y / 2) with (asin y) by field.
  pose proof (asin_bound_lt y ltac:(lra)) as [B1 B2]. assert (SA : sin (asin y) = y) by (apply sin_asin; lra).
  assert (P : 0 < asin y). { destruct (Rle_lt_dec (asin y) 0) as [L|L]; [|lra]. exfalso.
    assert (sin (asin y) <= 0); [|lra]. destruct (Req_dec (asin y) 0) as [->|N]; [rewrite sin_0; lra|]. left. apply sin_lt_0_var; lra. }
  split; [lra|]. split; [exact SA|]. split; [lra|]. apply cos_gt_0; lra.
Qed.
Lemma half_pos k : 0 < k < PI -> 0 < sin (k / 2) /\ 0 < cos (k / 2) /\ 0 < tan (k / 2).
Proof.
  intros K. assert (S : 0 < sin (k / 2)) by (apply sin_gt_0; lra). assert (C : 0 < cos (k / 2)) by (apply cos_gt_0; lra).
  split; [exact S|]. split; [exact C|]. unfold tan. apply Rdiv_lt_0_compat; assumption.
Qed.
Lemma grid_index_pos k e : 0 < k < PI -> 0 < e -> sqrt e * sin (k / 2) < 1 -> 0 < grid_index k e.
Proof.
  intros K E H. destruct (grid_phase_spec k e K E H) as (P & _). destruct (half_pos k K) as (_ & _ & T). destruct (half_pos _ P) as (_ & _ & T').
  apply Rdiv_lt_0_compat; assumption.
Qed.

Lemma start_S a layers j : (j < length layers)%nat -> start a layers (S j) = (start a layers j + snd (nth j layers (0%R, 0)))%nat.
Proof.
  unfold start. revert a j. induction layers as [|q l IH]; intros a [|j] H; cbn [length] in H; try lia.
  - cbn. lia.
  - specialize (IH a j ltac:(lia)). change (firstn (S (S j)) (q :: l)) with (q :: firstn (S j) l). change (firstn (S j) (q :: l)) with (q :: firstn j l).
    cbn [map list_sum fold_right nth]. fold (list_sum (map snd (firstn (S j) l))). fold (list_sum (map snd (firstn j l))). lia.
Qed.

Lemma map_Cmul_1 l : map (Cmul C1) l = l.
Proof. rewrite <- (map_id l) at 2. apply map_ext. intros z. ring. Qed.
Lemma nth_mid {X} (f : R * nat -> X) x layers y d i : (i < length layers)%nat -> nth (S i) (x :: map f layers ++ [y]) d = f (nth i layers (0%R, 0%nat)).
Proof. intros H. cbn [nth]. rewrite app_nth1 by (rewrite map_length; exact H). rewrite (nth_indep _ _ (f (0%R, 0%nat))) by (rewrite map_length; exact H). apply map_nth. Qed.
Lemma nth_end {X} (f : R * nat -> X) x layers y d : nth (S (length layers)) (x :: map f layers ++ [y]) d = y.
Proof. cbn [nth]. rewrite app_nth2; rewrite map_length; [|lia]. rewrite Nat.sub_diag. reflexivity. Qed.

Section Stack.
  Variables (arcsin : C -> C) (co w k : R) (a b : nat) (layers : list (R * nat)) (eps sig : nat -> R) (A : nat -> C) (r t : C).
  Hypothesis inv : inverts_sine arcsin.
  Hypothesis pri : principal arcsin.
  Hypothesis Co : 0 < co.
  Hypothesis K : 0 < k < PI.
  Hypothesis D : sin (w / 2) = co * sin (k / 2).
  Hypothesis Hl : forall q, In q layers -> 0 < fst q /\ sqrt (fst q) * sin (k / 2) < 1.
  Hypothesis M : stands_between eps sig a b.
  Hypothesis Lossless : forall x, sig x = 0.
  Hypothesis AB : (2 <= a <= b)%nat.
  Hypothesis Hb : (b + 1 = start a layers (length layers))%nat.
  Hypothesis F : filled eps a layers.
  Hypothesis Sc : scattered co w k eps sig a b A r t.

  Lemma cos_half e ka : sin (ka / 2) = sqrt e * sin (k / 2) -> 0 < e -> 2 * cos ka = 2 - 4 * e * sin (k / 2) ^ 2.
  Proof.
    intros S E. replace ka with (2 * (ka / 2)) at 1 by field. rewrite cos_2a_sin, S.
    replace (sin (k / 2) ^ 2) with (sin (k / 2) * sin (k / 2)) by ring.
    replace (2 * (sqrt e * sin (k / 2)) * (sqrt e * sin (k / 2))) with (2 * (sqrt e * sqrt e) * (sin (k / 2) * sin (k / 2))) by ring. rewrite sqrt_sqrt by lra. ring.
  Qed.
  Lemma layer_rec e ka x : (1 <= x)%nat -> eps x = e -> 0 < e -> sin (ka / 2) = sqrt e * sin (k / 2) ->
    (A (S x) + A (x - 1)%nat)%C = (RtoC (2 * cos ka) * A x)%C.
  Proof.
    intros Hx E P S. destruct Sc as (B & _). rewrite (B x Hx). f_equal. rewrite (cos_half e ka S P), E, D, Lossless. apply Ceq; cbn; field; lra.
  Qed.

  Lemma left_waves x : (x <= a)%nat -> A x = waves k C1 r x.
  Proof.
    destruct Sc as (SB & SL & SR).
    assert (B0 : forall x, (x < a)%nat -> A x = waves k C1 r x) by (intros y Hy; rewrite (SL y Hy); unfold waves; ring).
    intros Hx. destruct (Nat.eq_dec x a) as [->|]; [|apply B0; lia].
    destruct (M (a - 1)%nat) as (_ & _ & Q). destruct (Q ltac:(lia)) as [Q1 _].
    pose proof (layer_rec 1 k (a - 1) ltac:(lia) Q1 ltac:(lra) ltac:(rewrite sqrt_1; ring)) as R1.
    pose proof (waves_rec k C1 r (a - 1) ltac:(lia)) as R2. replace (S (a - 1)) with a in * by lia.
    replace (A a) with (A a + A (a - 1 - 1)%nat - A (a - 1 - 1)%nat)%C by ring. rewrite R1, !B0 by lia. rewrite <- R2. ring.
  Qed.
  Lemma right_waves x : (b <= x)%nat -> A x = waves k t C0 x.
  Proof.
    destruct Sc as (SB & SL & SR).
    assert (B0 : forall x, (b < x)%nat -> A x = waves k t C0 x) by (intros y Hy; rewrite (SR y Hy); unfold waves; ring).
    intros Hx. destruct (Nat.eq_dec x b) as [->|]; [|apply B0; lia].
    destruct (M (b + 1)%nat) as (_ & _ & Q). destruct (Q ltac:(lia)) as [Q1 _].
    pose proof (layer_rec 1 k (b + 1) ltac:(lia) Q1 ltac:(lra) ltac:(rewrite sqrt_1; ring)) as R1.
    pose proof (waves_rec k t C0 (b + 1) ltac:(lia)) as R2. replace (b + 1 - 1)%nat with b in * by lia.
    replace (A b) with (A (S (b + 1)) + A b - A (S (b + 1)))%C by ring. rewrite R1, !B0 by lia. rewrite <- R2. ring.
  Qed.

  Notation m := (length layers).
  Definition kas : list R := k :: map (fun q => grid_phase k (fst q)) layers ++ [k].
  Definition ka (i : nat) : R := nth i kas 0.
  Lemma ka_last : ka (S m) = k.
  Proof. apply nth_end. Qed.
  Lemma ka_mid i : (i < m)%nat -> ka (S i) = grid_phase k (fst (nth i layers (0, 0%nat))).
  Proof. apply (nth_mid (fun q => grid_phase k (fst q))). Qed.
  Lemma layer_ok i : (i < m)%nat -> 0 < fst (nth i layers (0, 0%nat)) /\ sqrt (fst (nth i layers (0, 0%nat))) * sin (k / 2) < 1.
  Proof. intros H. apply Hl, nth_In, H. Qed.
  Lemma ka_range i : (i < m + 2)%nat -> 0 < ka i < PI.
  Proof.
    intros Hi. destruct i as [|i]; [exact K|]. destruct (Nat.eq_dec i m) as [->|N]; [rewrite ka_last; exact K|].
    rewrite ka_mid by lia. destruct (layer_ok i ltac:(lia)) as [E1 E2]. apply (grid_phase_spec k _ K E1 E2).
  Qed.
  Lemma index_nth i : (i < m + 2)%nat -> nth i (slab_indices k layers) C0 = RtoC (tan (ka i / 2) / tan (k / 2)).
  Proof.
    intros Hi. destruct (half_pos k K) as (_ & _ & T). assert (E : RtoC (tan (k / 2) / tan (k / 2)) = C1) by (apply Ceq; cbn; [field; lra|reflexivity]).
    unfold slab_indices. destruct i as [|i]; [symmetry; exact E|]. destruct (Nat.eq_dec i m) as [->|N].
    - rewrite ka_last, E. apply nth_end.
    - rewrite ka_mid by lia. apply (nth_mid (fun q => RtoC (grid_index k (fst q)))). lia.
  Qed.
  Definition X (i : nat) : nat := start a layers (i - 1).
  Definition z0 : C := fw A k a.
  Definition wv (i : nat) : C * C := ((fw A (ka i) (X i) / z0)%C, (fw A (- ka i) (X i) / z0)%C).

  Lemma z0_neq : z0 <> C0.
  Proof.
    destruct (half_pos k K) as (S & C & _). unfold z0. rewrite (fw_value A k C1 r a) by (try apply left_waves; lia || lra).
    apply Cmul_neq_0; [apply Cmul_neq_0|].
    - intros H. injection H as H. lra.
    - intros H. injection H as H. lra.
    - intros H. assert (N : Cnorm2 (Cis (k * (INR a - / 2))) = 1) by (unfold Cnorm2, Cis; cbn; pose proof (sin2_cos2 (k * (INR a - / 2))) as Q; unfold Rsqr in Q; lra).
      rewrite H in N. cbn in N. unfold Cnorm2 in N. cbn in N. lra.
  Qed.

  Lemma tang kk x : 0 < kk < PI -> tangential "s"%string (RtoC (tan (kk / 2) / tan (k / 2))) C1 ((fw A kk x / z0)%C, (fw A (- kk) x / z0)%C)
    = ((PP A x / z0)%C, (RtoC (/ tan (k / 2)) * QQ A x / z0)%C).
  Proof.
    intros Hk. destruct (half_pos kk Hk) as (S & C & _). destruct (half_pos k K) as (_ & _ & T). pose proof z0_neq as Z.
    unfold tangential. cbn [String.eqb Ascii.eqb Bool.eqb fst snd]. f_equal.
    - rewrite <- (fw_sum A kk x) by lra. field. exact Z.
    - rewrite <- (fw_diff A kk x) by lra.
      replace (RtoC (tan (kk / 2) / tan (k / 2))) with (RtoC (/ tan (k / 2)) * RtoC (tan (kk / 2)))%C by (apply Ceq; cbn; field; lra). field. exact Z.
  Qed.

  Lemma Cexp_i x : Cexp (Ci * RtoC x)%C = Cis x /\ Cexp (- Ci * RtoC x)%C = Cis (- x).
  Proof.
    unfold Cexp, Cis. cbn. split.
    - replace (0 * x - 1 * 0) with 0 by ring. replace (0 * 0 + 1 * x) with x by ring. rewrite exp_0. apply Ceq; cbn; ring.
    - replace (- 0 * x - - (1) * 0) with 0 by ring. replace (- 0 * 0 + - (1) * x) with (- x) by ring. rewrite exp_0. apply Ceq; cbn; ring.
  Qed.

  Lemma advanced i : (i < m)%nat ->
    advance (RtoC (ka (S i) * INR (snd (nth i layers (0%R, 0%nat))))) (wv (S i)) = ((fw A (ka (S i)) (X (S (S i))) / z0)%C, (fw A (- ka (S i)) (X (S (S i))) / z0)%C).
  Proof.
    intros Hi. pose proof z0_neq as Z. set (L := snd (nth i layers (0, 0%nat))). set (kk := ka (S i)).
    assert (XS : X (S (S i)) = (X (S i) + L)%nat) by (unfold X; cbn [Nat.sub]; rewrite Nat.sub_0_r; apply start_S; exact Hi).
    destruct (layer_ok i Hi) as [E1 E2]. destruct (grid_phase_spec k _ K E1 E2) as (_ & SE & _). rewrite <- ka_mid in SE by exact Hi. fold kk in SE.
    assert (RR : forall y, (X (S i) <= y < X (S i) + L)%nat -> (A (S y) + A (y - 1)%nat)%C = (RtoC (2 * cos kk) * A y)%C).
    { intros y Hy. rewrite <- XS in Hy. unfold X in Hy. cbn [Nat.sub] in Hy. rewrite Nat.sub_0_r in Hy. apply (layer_rec (fst (nth i layers (0, 0%nat)))).
      - unfold start in Hy. lia.
      - apply F; [exact Hi|exact Hy].
      - exact E1.
      - exact SE. }
    unfold advance, wv. fold kk. cbn [fst snd]. destruct (Cexp_i (kk * INR L)) as [-> ->]. rewrite XS. f_equal.
    - rewrite (fw_run A kk _ L RR). field. exact Z.
    - rewrite (fw_run A (- kk) _ L) by (intros y Hy; rewrite cos_neg; apply RR; exact Hy). replace (- kk * INR L) with (- (kk * INR L)) by ring. field. exact Z.
  Qed.

  Lemma agree : exists DD, coh_tmm arcsin "s"%string (slab_indices k layers) (slab_thicknesses k layers) C0 (2 * PI / k) = Ok DD
    /\ c_r DD = (r * Cis (- (k * (2 * INR a - 1))))%C /\ c_t DD = (t * Cis (k * INR (b + 1 - a)))%C /\ c_R DD = Cnorm2 r /\ c_T DD = Cnorm2 t.
  Proof.
    pose proof PI_RGT_0 as PI0. set (f := k / (2 * PI)). assert (Hf : 0 < f) by (apply Rdiv_lt_0_compat; lra).
    assert (Ef : 1 / f = 2 * PI / k) by (unfold f; field; lra).
    assert (E1 : RtoC 1 = C1) by reflexivity.
    destruct (coh_total arcsin "s"%string C1 f 1 1 (map (fun q => (RtoC (grid_index k (fst q)), grid_thickness k (fst q) (snd q))) layers) inv pri) as (DD & HR & NO); try (cbn; lra); auto.
    { intros q Hq. apply in_map_iff in Hq. destruct Hq as (p & <- & Hp). destruct (Hl p Hp) as [P1 P2].
      pose proof (grid_index_pos k (fst p) K P1 P2) as G. destruct (grid_phase_spec k _ K P1 P2) as (GP & _).
      assert (0 <= grid_thickness k (fst p) (snd p)).
      { unfold grid_thickness. apply Rmult_le_pos; [apply Rmult_le_pos; [lra|apply pos_INR]|]. left. apply Rinv_0_lt_compat, Rmult_lt_0_compat; lra. }
      cbn [fst snd]. replace (C1 * RtoC (grid_index k (fst p)))%C with (RtoC (grid_index k (fst p))) by ring. cbn [Re Im RtoC fst snd]. cbn. repeat split; try lra. }
    exists DD. rewrite !map_map in HR. cbn [fst snd] in HR.
    set (l := map (fun q => (RtoC (grid_index k (fst q)), C0, grid_thickness k (fst q) (snd q))) layers).
    assert (HR' : coh_tmm arcsin "s"%string (map (Cmul C1) (RtoC 1 :: map (fun p : C * C * R => fst (fst p)) l ++ [RtoC 1])) (PInf :: map (fun p : C * C * R => Fin (snd p)) l ++ [PInf]) C0 (1 / f) = Ok DD).
    { unfold l. rewrite !map_map. cbn [fst snd]. exact HR. }
    rewrite map_Cmul_1, E1, Ef in HR. fold (slab_indices k layers) (slab_thicknesses k layers) in HR.
    split; [exact HR|].
    assert (Ll : length l = m) by (unfold l; apply map_length).
    assert (Ln : length (slab_indices k layers) = (m + 2)%nat) by (unfold slab_indices; cbn [length]; rewrite app_length, map_length; cbn; lia).
    assert (Cs : forall i, (i < m + 2)%nat -> Ccos (nth i (c_th DD) C0) = C1).
    { intros i Hi. pose proof (cosines arcsin inv pri "s"%string C1 f 1 1 l DD ltac:(cbn; lra) ltac:(lra) HR' i) as Q.
      rewrite map_length in Q. cbn [length] in Q. rewrite app_length, map_length, Ll in Q. cbn in Q. apply Q. lia. }
    assert (Co' : forall i, (i < m + 2)%nat -> nth i (map Ccos (c_th DD)) C0 = C1).
    { intros i Hi. destruct (Proof_TMM16.snell_all arcsin "s"%string _ _ _ _ DD inv HR) as (Lth & _).
      rewrite (nth_indep _ _ (Ccos C0)) by (rewrite map_length; lia). rewrite map_nth. apply Cs. exact Hi. }
    assert (Ph : forall i, (i < m)%nat -> nth (S i) (phases DD) C0 = RtoC (ka (S i) * INR (snd (nth i layers (0, 0%nat))))).
    { intros i Hi. rewrite (phase_is arcsin inv pri "s"%string C1 f 1 1 l DD ltac:(cbn; lra) Hf ltac:(lra) HR' NO i) by lia.
      unfold l. rewrite (nth_indep _ _ ((fun q => (RtoC (grid_index k (fst q)), C0, grid_thickness k (fst q) (snd q))) (0, 0%nat))) by (rewrite map_length; exact Hi).
      rewrite (map_nth (fun q : R * nat => (RtoC (grid_index k (fst q)), C0, grid_thickness k (fst q) (snd q)))). cbn [fst snd]. rewrite ka_mid by exact Hi. destruct (layer_ok i Hi) as [P1 P2].
      pose proof (grid_index_pos k _ K P1 P2) as G. unfold grid_thickness. set (g := grid_index k _) in *. set (h := grid_phase k _). set (n := INR _). unfold f.
      apply Ceq; cbn; field; repeat split; lra. }
    assert (W : wave_in_stack "s"%string (slab_indices k layers) (map Ccos (c_th DD)) (phases DD) (map wv (seq 0 (m + 2)))).
    { split; [rewrite map_length, seq_length; lia|]. intros i Hi. rewrite Ln in Hi.
      assert (Wn : forall j, (j < m + 2)%nat -> nth j (map wv (seq 0 (m + 2))) (C0, C0) = wv j).
      { intros j Hj. rewrite (nth_indep _ _ (wv 0)) by (rewrite map_length, seq_length; exact Hj). rewrite map_nth, seq_nth by exact Hj. reflexivity. }
      rewrite !Wn, !Co', !index_nth by lia. unfold wv at 3. rewrite (tang (ka (S i))) by (apply ka_range; lia).
      destruct i as [|i]; cbn [Nat.eqb].
      - unfold wv. rewrite tang by exact K. reflexivity.
      - rewrite Ph, advanced by lia. rewrite tang by (apply ka_range; lia). reflexivity. }
    pose proof z0_neq as Z. destruct (half_pos k K) as (Sk & Ck & _).
    assert (V0 : z0 = (RtoC (cos (k / 2)) * Cis (k * (INR a - / 2)))%C).
    { unfold z0. rewrite (fw_value A k C1 r a) by (try apply left_waves; lia || lra). ring. }
    assert (CN : RtoC (cos (k / 2)) <> C0) by (intros H; injection H as H; lra).
    assert (ZN : Cis (k * (INR a - / 2)) <> C0) by (intros H; apply Z; rewrite V0, H; ring).
    destruct (Proof_TMM16.unique_all arcsin "s"%string (slab_indices k layers) (slab_thicknesses k layers) C0 (2 * PI / k) DD (map wv (seq 0 (m + 2)))
        (r * Cis (- (k * (2 * INR a - 1))))%C (t * Cis (k * INR (b + 1 - a)))%C HR W) as [U1 U2].
    { replace (m + 2)%nat with (S (m + 1)) by lia. cbn [seq map nth]. unfold wv, ka, X. cbn [nth kas Nat.sub]. unfold start. cbn [firstn map list_sum fold_right]. rewrite Nat.add_0_r. f_equal.
      - fold z0. field. exact Z.
      - rewrite (fw_value' A k C1 r a) by (try apply left_waves; lia || lra). rewrite V0.
        replace (- (k * (2 * INR a - 1))) with (- (k * (INR a - / 2)) + - (k * (INR a - / 2))) by field. rewrite Cis_add.
        set (y := k * (INR a - / 2)) in *. assert (P : (Cis y * Cis (- y))%C = C1) by (rewrite <- Cis_add, Rplus_opp_r; apply Cis_0).
        set (p := Cis y) in *. set (p' := Cis (- y)) in *.
        transitivity (r * p' / p)%C; [field; auto|]. transitivity (r * p' * (p * p') / p)%C; [rewrite P; field; exact ZN|field; exact ZN]. }
    { rewrite Ln. replace (m + 2 - 1)%nat with (S m) by lia. rewrite (nth_indep _ _ (wv 0)) by (rewrite map_length, seq_length; lia). rewrite map_nth, seq_nth by lia.
      cbn [plus]. unfold wv. rewrite ka_last. unfold X. cbn [Nat.sub]. rewrite Nat.sub_0_r, <- Hb. f_equal.
      - rewrite (fw_value A k t C0 (b + 1)) by (try apply right_waves; lia || lra). rewrite V0, minus_INR by lia.
        replace (k * (INR (b + 1) - / 2)) with (k * (INR (b + 1) - INR a) + k * (INR a - / 2)) by ring. rewrite Cis_add. field. auto.
      - rewrite (fw_value' A k t C0 (b + 1)) by (try apply right_waves; lia || lra). field. exact Z. }
    assert (N1 : forall x, Cnorm2 (Cis x) = 1) by (intros x; unfold Cnorm2, Cis; cbn; pose proof (sin2_cos2 x) as Q; unfold Rsqr in Q; lra).
    split; [symmetry; exact U1|]. split; [symmetry; exact U2|].
    destruct (Proof_TMM16.powers_all arcsin "s"%string _ _ _ _ DD inv HR) as (PT & _ & PR & _).
    split; [rewrite PR, <- U1, Cnorm2_mul, N1; ring|]. rewrite PT, Ln. replace (m + 2 - 1)%nat with (S m) by lia.
    destruct (Proof_TMM16.solves_all arcsin "s"%string _ _ _ _ DD inv HR) as (_ & _ & WN). rewrite Ln in WN. replace (m + 2 - 1)%nat with (S m) in WN by lia. rewrite WN, <- U2.
    destruct (Proof_TMM16.inputs_all arcsin "s"%string _ _ _ _ DD HR) as (Ep & En & _).
    unfold relative_power, index_of, cosine_of. rewrite Ep, En. rewrite !index_nth by lia. rewrite ka_last. change (ka 0) with k.
    rewrite !Cs by lia. assert (TT : tan (k / 2) / tan (k / 2) = 1) by (destruct (half_pos k K) as (_ & _ & T); field; lra). rewrite !TT.
    assert (PW : forall y, power "s"%string (RtoC 1) C1 (y, C0) = Cnorm2 y) by (intros [y1 y2]; unfold power, tangential, Cnorm2; cbn; ring).
    rewrite !PW, Cnorm2_mul, N1. unfold Cnorm2 at 2. cbn. field.
  Qed.
End Stack.
