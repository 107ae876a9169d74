From Coq Require Import Reals ZArith String List Bool Lra Lia Psatz.
From Verif Require Import Base BaseLemmas Cplx CplxLemmas PyVal Spec_Config Model_Units Model_Coeffs Model_FDTD Model_Register Spec_FDTD Spec_Register Model_Layout Spec_Layout
  Proof_FDTD Proof_Reset Proof_Layout Proof_Wave2 Spec_Harmonic Proof_Harmonic Proof_Harmonic5 Proof_Harmonic7 Proof_Reverse Spec_Rows Proof_Rows.
Import ListNotations.
Open Scope R_scope.

Lemma simulation_rows c slice wl row layers g s0 : proper c -> 1 <= f_scaling c * f_pml c -> known_kinds c -> 0 < wl ->
  f_thick c <> [] -> get slice 0 = Ok row -> get row 0 = Ok layers -> layers <> [] ->
  (forall e, In e layers -> 0 < fst e /\ 0 <= snd e) ->
  Rtrunc (f_src_x c * f_scaling c) = Z.of_nat s0 -> (pml_columns c <= S s0)%nat ->
  init_fdtd c (Some slice) wl = Ok g ->
  exists eps sig, three_rows g eps sig (S s0) (columns c - pml_columns c - 1)
    /\ stands_between eps sig (edge c 0) (edge c (length layers) - 1)
    /\ forall j x, (j < length layers)%nat -> (edge c j <= x < edge c (S j))%nat ->
        eps x = fst (nth j layers (0, 0))
        /\ sig x = / 2 * (99 / 100 / sqrt 2) * conductivity (nth j layers (0, 0)) wl * (UNIT_MAGNITUDE / f_scaling c) * ETA_0 / fst (nth j layers (0, 0)).
Proof.
  intros P H1 K W T R0 L0 Le Pos Es Ps I. destruct (simulation c slice wl row layers g s0 P H1 K W T R0 L0 Le Pos Es Ps I) as (eps & sig & F & B & _ & M).
  exists eps, sig. split; [|split; assumption]. destruct (material_layout c slice wl row layers P H1 K W T R0 L0 Le) as [_ Ly]. destruct (Ly g I) as (Fr & _ & _).
  destruct Fr as (NX & NY & NZ & _ & (b1 & b2 & Gb & _ & _) & _ & _ & _ & _ & Im).
  split; [exact F|]. split; [exact NY|]. split; [exact NZ|]. split; [rewrite Gb; right; right; left; reflexivity|]. intros p _ _. rewrite Im. reflexivity.
Qed.

Lemma ten_columns eps sig w A g g1 g2 g3 lo hi n M d x : three_rows g eps sig lo hi -> rows_agree g lo hi -> step g = Ok g1 -> step g1 = Ok g2 -> step g2 = Ok g3 ->
  0 < g_courant g -> sin w <> 0 -> (forall x, (lo <= x <= hi)%nat -> 0 < eps x /\ 0 <= sig x) -> rows_settled w A g n lo hi 3 ->
  (forall x, (lo <= x <= hi)%nat -> eps x * sin (w / 2) ^ 2 <= (g_courant g * sin (PI / 10)) ^ 2) ->
  (forall x, (lo <= x <= hi)%nat -> Cabs (row_gap A x) <= M) -> (lo + d <= x)%nat -> (x + d <= hi)%nat -> Cabs (row_gap A x) <= M / (5 / 2) ^ d.
Proof.
  intros T Ag S1 S2 S3 Co Sw Po Se Ten HM L1 L2.
  apply (evens_out eps sig w A g g1 g2 g3 lo hi n T Ag S1 S2 S3 Co Sw Po Se (5 / 2) M d x); [lra| |exact HM|exact L1|exact L2].
  intros y Hy. specialize (Ten y Hy). pose proof PI_upper as PU. pose proof PI_RGT_0 as P0.
  assert (S0 : 0 < sin (PI / 10)) by (apply sin_gt_0; lra). assert (SU : sin (PI / 10) <= 32 / 100) by (pose proof (sin_lt_x (PI / 10)); lra).
  assert (C2 : 0 < g_courant g ^ 2) by (apply pow_lt; exact Co).
  assert (Q : 4 * sin (w / 2) ^ 2 * eps y / g_courant g ^ 2 <= 1).
  { apply (Rmult_le_reg_r (g_courant g ^ 2)); [exact C2|]. unfold Rdiv. rewrite Rmult_assoc, Rinv_l, Rmult_1_r, Rmult_1_l by lra.
    rewrite Rpow_mult_distr in Ten. assert (sin (PI / 10) ^ 2 <= 1 / 4) by nra. nra. }
  lra.
Qed.

(** * A simulation whose rows differ *)
Definition gap_grid : grid :=
  mkGrid (shape_of 9 3 1) 1 (sqrt (2 / 7)) 1
    (fun p c => match c with AZ => (if (coord AY p =? 1)%nat then 1 else -1) * (/ 2) ^ coord AX p | _ => 0 end)
    (fun p c => match c with
       | AX => (if (coord AY p =? 1)%nat then 1 else -1) * sqrt (2 / 7) * (/ 2) ^ coord AX p
       | AY => - (if (coord AY p =? 1)%nat then 1 else -1) * sqrt (2 / 7) * / 4 * (/ 2) ^ coord AX p
       | _ => 0 end)
    (fun _ _ => 0) (fun _ _ => 1) (fun _ _ => 1) 0 [] [Periodic AY] [] 0 [].
Definition gap_amp (j x : nat) : C := RtoC ((if (j =? 1)%nat then 1 else -1) * (/ 2) ^ x).
Definition gap_state (e h : R) (g : grid) (lo hi : nat) : Prop :=
  forall x j, (lo <= x <= hi)%nat -> (j <= 2)%nat -> let s := (if (j =? 1)%nat then 1 else -1) * (/ 2) ^ x in
    ez g x j = e * s /\ hx g x j = 2 * h * sqrt (2 / 7) * s /\ ((x < hi)%nat -> hy g x j = - / 2 * h * sqrt (2 / 7) * s).
Lemma root27 : sqrt (2 / 7) * sqrt (2 / 7) = 2 / 7.
Proof. apply sqrt_sqrt. lra. Qed.
Lemma gap_step e h g g' lo hi lo' hi' : three_rows g (fun _ => 1) (fun _ => 0) lo' hi' -> (lo' <= lo)%nat -> (hi <= hi')%nat -> g_courant g = sqrt (2 / 7) -> gap_state e h g lo hi -> step g = Ok g' ->
  three_rows g' (fun _ => 1) (fun _ => 0) lo' hi' /\ g_courant g' = sqrt (2 / 7) /\ gap_state (e - h) (e - h + h) g' (S lo) (hi - 1).
Proof.
  intros T L1 L2 Co G St. destruct (step_rows _ _ _ _ _ _ T St) as (T' & C' & A' & E' & Y' & X'). split; [exact T'|]. split; [congruence|].
  assert (EV : forall x j, (S lo <= x <= hi - 1)%nat -> (1 <= j <= 2)%nat -> ez g' x j = (e - h) * ((if (j =? 1)%nat then 1 else -1) * (/ 2) ^ x)).
  { intros x j Lx Jj. rewrite E' by lia. rewrite Co. destruct (G x j ltac:(lia) ltac:(lia)) as (G1 & G2 & G3). destruct (G (x - 1)%nat j ltac:(lia) ltac:(lia)) as (_ & _ & G4).
    destruct (G x (j - 1)%nat ltac:(lia) ltac:(lia)) as (_ & G5 & _). rewrite G1, G2, G3, G4, G5 by lia.
    replace (x - 1)%nat with (pred x) by lia. assert (PW : (/ 2) ^ pred x = 2 * (/ 2) ^ x) by (destruct x as [|x]; [lia|]; cbn [pred pow]; field). rewrite PW.
    pose proof root27 as RR. set (r := sqrt (2 / 7)) in *. set (u := (/ 2) ^ x).
    assert (HJ : j = 1%nat \/ j = 2%nat) by lia. destruct HJ as [-> | ->]; cbn [Nat.eqb Nat.sub].
    - transitivity (e * u - r * r * (7 / 2) * h * u); [field|]. rewrite RR. field.
    - transitivity (- e * u + r * r * (7 / 2) * h * u); [field|]. rewrite RR. field. }
  assert (EV0 : forall x j, (S lo <= x <= hi - 1)%nat -> (j <= 2)%nat -> ez g' x j = (e - h) * ((if (j =? 1)%nat then 1 else -1) * (/ 2) ^ x)).
  { intros x j Lx Jj. destruct j as [|j]; [|apply EV; lia]. destruct (A' x ltac:(lia)) as [-> _]. rewrite EV by lia. reflexivity. }
  assert (HXV : forall x j, (S lo <= x <= hi - 1)%nat -> (j <= 1)%nat -> hx g' x j = 2 * (e - h + h) * sqrt (2 / 7) * ((if (j =? 1)%nat then 1 else -1) * (/ 2) ^ x)).
  { intros x j Lx Jj. rewrite X' by lia. rewrite !EV0 by lia. destruct (G x j ltac:(lia) ltac:(lia)) as (_ & -> & _). rewrite Co.
    assert (HJ : j = 0%nat \/ j = 1%nat) by lia. destruct HJ as [-> | ->]; cbn [Nat.eqb]; ring. }
  assert (HYV : forall x j, (S lo <= x < hi - 1)%nat -> (j <= 1)%nat -> hy g' x j = - / 2 * (e - h + h) * sqrt (2 / 7) * ((if (j =? 1)%nat then 1 else -1) * (/ 2) ^ x)).
  { intros x j Lx Jj. rewrite Y' by lia. rewrite !EV0 by lia. destruct (G x j ltac:(lia) ltac:(lia)) as (_ & _ & G3). rewrite G3 by lia. rewrite Co. cbn [pow]. field. }
  intros x j Lx Jj s. split; [apply EV0; lia|]. destruct (Nat.eq_dec j 2) as [-> |Nj].
  - destruct (A' x ltac:(lia)) as [_ AH]. unfold hx, hy. rewrite !AH. fold (hx g' x 0) (hy g' x 0). split; [rewrite HXV by lia; reflexivity|]. intros H. rewrite HYV by lia. reflexivity.
  - split; [apply HXV; lia|]. intros H. apply HYV; lia.
Qed.
Lemma gap_rows : three_rows gap_grid (fun _ => 1) (fun _ => 0) 0 8.
Proof.
  split; [|cbn; auto]. split; [cbn; lia|]. split; [repeat constructor|]. split; [constructor|]. intros p _ _. cbn. rewrite Rinv_1. auto.
Qed.
Lemma gap_start : gap_state 1 (/ 2) gap_grid 0 8.
Proof. intros x j _ _ s. unfold ez, hx, hy, s. cbn [gap_grid g_E g_H coord]. repeat split; [ring|field|intros _; field]. Qed.
Lemma three_steps g : (exists gn, run_steps 3 g = Ok gn) -> exists g1 g2 g3, step g = Ok g1 /\ step g1 = Ok g2 /\ step g2 = Ok g3.
Proof. intros [gn Rn]. cbn [run_steps] in Rn. apply bind_ok in Rn as (g1 & S1 & Rn). apply bind_ok in Rn as (g2 & S2 & Rn). apply bind_ok in Rn as (g3 & S3 & _). exists g1, g2, g3. auto. Qed.
Lemma gap_runs : exists gn, run_steps 3 gap_grid = Ok gn.
Proof. apply run_raises_iff. right. split; [repeat constructor|]. split; [constructor|intros; constructor]. Qed.
Lemma run_0 g gk : run_steps 0 g = Ok gk -> gk = g.
Proof. cbn. intros H. injection H as <-. reflexivity. Qed.
Lemma gap_case : exists g g1 g2 g3, three_rows g (fun _ => 1) (fun _ => 0) 3 5 /\ rows_agree g 3 5 /\ step g = Ok g1 /\ step g1 = Ok g2 /\ step g2 = Ok g3
  /\ 0 < g_courant g /\ sin (PI / 3) <> 0 /\ rows_settled (PI / 3) gap_amp g 0 3 5 3
  /\ (forall x, (3 <= x <= 5)%nat -> 2 * (5 / 4) <= 6 - 4 * sin (PI / 3 / 2) ^ 2 * 1 / g_courant g ^ 2)
  /\ (forall x, (3 <= x <= 5)%nat -> Cabs (row_gap gap_amp x) <= 1 / 4) /\ row_gap gap_amp 4 = RtoC (1 / 8).
Proof.
  assert (SR : 0 < sqrt (2 / 7)) by (apply sqrt_lt_R0; lra).
  pose proof (three_steps gap_grid gap_runs) as RN.
  destruct RN as (g1 & g2 & g3 & S1 & S2 & S3). exists gap_grid, g1, g2, g3.
  destruct (gap_step 1 (/ 2) gap_grid g1 0 8 0 8 gap_rows ltac:(lia) ltac:(lia) eq_refl gap_start S1) as (T1 & C1 & G1).
  destruct (gap_step _ _ g1 g2 1 7 0 8 T1 ltac:(lia) ltac:(lia) C1 G1 S2) as (T2 & C2 & G2).
  destruct (gap_step _ _ g2 g3 2 6 0 8 T2 ltac:(lia) ltac:(lia) C2 G2 S3) as (T3 & C3 & G3).
  assert (Q6 : sin (PI / 3 / 2) = 1 / 2) by (replace (PI / 3 / 2) with (PI / 6) by field; apply sin_PI6).
  split. { destruct gap_rows as (F & R). split; [apply (sub_columns _ _ _ 0 8); [lia|lia|exact F]|]. destruct R as (a & b & c & d). split; [exact a|]. split; [exact b|]. split; [exact c|]. intros p Gp Lp. apply d; [exact Gp|lia]. }
  split. { intros x Lx. split; [reflexivity|]. intros [| |]; reflexivity. }
  split; [exact S1|]. split; [exact S2|]. split; [exact S3|]. split; [exact SR|].
  split. { apply Rgt_not_eq, sin_gt_0; pose proof PI_RGT_0; lra. }
  split.
  { destruct (runs gap_grid g1 g2 g3 S1 S2 S3) as (R0 & R1 & R2 & R3).
    assert (V : forall j x t, Re (gap_amp j x * Cis t)%C = cos t * ((if (j =? 1)%nat then 1 else -1) * (/ 2) ^ x)) by (intros j x t; unfold gap_amp, RtoC, Cis, Cmul, Re, Im; cbn [fst snd]; ring).
    intros k gk x j Hk Rk Lx Jj. rewrite V, cos_neg. cbn [Nat.add].
    destruct k as [|[|[|[|k]]]]; [| | | |lia].
    - apply run_0 in Rk. subst gk. rewrite (proj1 (gap_start x j ltac:(lia) ltac:(lia))). replace (PI / 3 * INR 0) with 0 by (cbn; ring). rewrite cos_0. reflexivity.
    - rewrite R1 in Rk. injection Rk as <-. rewrite (proj1 (G1 x j ltac:(lia) ltac:(lia))). replace (PI / 3 * INR 1) with (PI / 3) by (cbn; ring). rewrite cos_PI3. field.
    - rewrite R2 in Rk. injection Rk as <-. rewrite (proj1 (G2 x j ltac:(lia) ltac:(lia))). replace (PI / 3 * INR 2) with (2 * (PI / 3)) by (cbn; ring). rewrite cos_2PI3. field.
    - rewrite R3 in Rk. injection Rk as <-. rewrite (proj1 (G3 x j ltac:(lia) ltac:(lia))). replace (PI / 3 * INR 3) with PI by (cbn; field). rewrite cos_PI. field. }
  split. { intros x _. rewrite Q6. cbn [gap_grid g_courant]. replace (sqrt (2 / 7) ^ 2) with (2 / 7) by (pose proof root27; cbn [pow]; lra). lra. }
  assert (GV : forall x, row_gap gap_amp x = RtoC (2 * (/ 2) ^ x)) by (intros x; unfold row_gap, gap_amp, RtoC, Csub, Re, Im; cbn [Nat.eqb fst snd]; f_equal; ring).
  split.
  - intros x Lx. rewrite GV. unfold Cabs, Cnorm2, RtoC, Re, Im. cbn [fst snd]. rewrite Rmult_0_l, Rplus_0_r.
    assert (U : 0 < (/ 2) ^ x <= / 8). { split; [apply pow_lt; lra|]. replace x with (3 + (x - 3))%nat by lia. rewrite pow_add. assert (0 < (/ 2) ^ (x - 3) <= 1) by (split; [apply pow_lt; lra|]; rewrite <- (pow1 (x - 3)); apply pow_incr; lra). cbn [pow]. lra. }
    change (sqrt (Rsqr (2 * (/ 2) ^ x)) <= 1 / 4). rewrite sqrt_Rsqr by lra. lra.
  - rewrite GV. unfold RtoC. f_equal. cbn [pow]. field.
Qed.
