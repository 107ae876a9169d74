From Coq Require Import Reals ZArith List Bool Lra Lia Psatz.
From Verif Require Import Base BaseLemmas Cplx CplxLemmas Model_FDTD Spec_FDTD Proof_FDTD Proof_Propagate Spec_Harmonic Proof_Harmonic Proof_Sqrt Spec_Layout Proof_Reverse Spec_Rows.
From Verif Require Proof_Plots.
Import ListNotations.
Open Scope R_scope.

Section Fold.
  Variables (N : shape3) (lo hi : nat).
  Lemma mvE_x b p : outside N lo hi b -> coord AX (mvE N b p) = coord AX p.
  Proof. destruct b; try reflexivity. cbn [outside mvE mvH]. intros ->. destruct (_ =? _)%nat; [|reflexivity]. rewrite coord_setc. reflexivity. Qed.
  Lemma mvH_x b p : outside N lo hi b -> coord AX (mvH N b p) = coord AX p.
  Proof. destruct b; try reflexivity. cbn [outside mvE mvH]. intros ->. destruct (_ =? _)%nat; [|reflexivity]. rewrite coord_setc. reflexivity. Qed.
  Lemma mvsE_x bs p : Forall (outside N lo hi) bs -> coord AX (mvsE N bs p) = coord AX p.
  Proof. induction 1 as [|b r Hb _ IH]; [reflexivity|]. cbn [mvsE fold_right]. rewrite mvE_x by exact Hb. exact IH. Qed.
  Lemma mvsH_x bs p : Forall (outside N lo hi) bs -> coord AX (mvsH N bs p) = coord AX p.
  Proof. induction 1 as [|b r Hb _ IH]; [reflexivity|]. cbn [mvsH fold_right]. rewrite mvH_x by exact Hb. exact IH. Qed.

  Lemma colsE co ie bs : Forall (outside N lo hi) bs -> forall F p c, in_grid N p -> (lo <= coord AX p <= hi)%nat ->
    fold_left (fun E b => boundary_update_E N co ie b E) bs F p c = F (mvsE N bs p) c.
  Proof.
    induction 1 as [|b r Hb Hr IH]; intros F p c G L; [reflexivity|]. cbn [fold_left]. rewrite IH by assumption. cbn [mvsE fold_right]. fold (mvsE N r p).
    pose proof (grid_mvsE N r p G) as Gq. pose proof (mvsE_x r p Hr) as Xq.
    destruct b as [a|pm| |]; cbn [boundary_update_E mvE]; try reflexivity.
    - destruct (_ =? _)%nat; reflexivity.
    - rewrite (outside_pml N lo hi pm) by (try assumption; rewrite Xq; exact L). reflexivity.
  Qed.
  Lemma colsH co im bs : Forall (outside N lo hi) bs -> forall F p c, in_grid N p -> (lo <= coord AX p <= hi)%nat ->
    fold_left (fun H b => boundary_update_H N co im b H) bs F p c = F (mvsH N bs p) c.
  Proof.
    induction 1 as [|b r Hb Hr IH]; intros F p c G L; [reflexivity|]. cbn [fold_left]. rewrite IH by assumption. cbn [mvsH fold_right]. fold (mvsH N r p).
    pose proof (grid_mvsH N r p G) as Gq. pose proof (mvsH_x r p Hr) as Xq.
    destruct b as [a|pm| |]; cbn [boundary_update_H mvH]; try reflexivity.
    - destruct (_ =? _)%nat; reflexivity.
    - rewrite (outside_pml N lo hi pm) by (try assumption; rewrite Xq; exact L). reflexivity.
  Qed.
  Lemma per_y bs : In (Periodic AY) bs -> per bs AY = true.
  Proof. intros I. unfold per. apply existsb_exists. exists (Periodic AY). split; [exact I|reflexivity]. Qed.
  Lemma up_E bs x j : N AY = 3%nat -> N AZ = 1%nat -> (x < N AX)%nat -> (j < 3)%nat -> Forall (outside N lo hi) bs -> In (Periodic AY) bs ->
    mvsE N bs (x, j, 0)%nat = (x, if (j =? 0)%nat then 2%nat else j, 0)%nat.
  Proof.
    intros NY NZ Hx Hj O I. assert (G : in_grid N (x, j, 0)%nat) by (intros [| |]; cbn; lia). apply pos_ext. intros [| |].
    - rewrite mvsE_x by exact O. reflexivity.
    - rewrite coord_mvsE by exact G. rewrite per_y by exact I. cbn [coord andb]. rewrite NY. reflexivity.
    - pose proof (grid_mvsE N bs _ G AZ) as Q. rewrite NZ in Q. transitivity 0%nat; [lia|reflexivity].
  Qed.
  Lemma down_H bs x j : N AY = 3%nat -> N AZ = 1%nat -> (x < N AX)%nat -> (j < 3)%nat -> Forall (outside N lo hi) bs -> In (Periodic AY) bs ->
    mvsH N bs (x, j, 0)%nat = (x, if (j =? 2)%nat then 0%nat else j, 0)%nat.
  Proof.
    intros NY NZ Hx Hj O I. assert (G : in_grid N (x, j, 0)%nat) by (intros [| |]; cbn; lia). apply pos_ext. intros [| |].
    - rewrite mvsH_x by exact O. reflexivity.
    - rewrite coord_mvsH by exact G. rewrite per_y by exact I. cbn [coord andb]. rewrite NY. reflexivity.
    - pose proof (grid_mvsH N bs _ G AZ) as Q. rewrite NZ in Q. transitivity 0%nat; [lia|reflexivity].
  Qed.
  Lemma src_E q ss : Forall (source_outside N lo hi) ss -> forall F F', fold_res (source_update_E N q) ss F = Ok F' ->
    forall p c, (lo <= coord AX p <= hi)%nat -> F' p c = F p c.
  Proof.
    induction 1 as [|s ss (x0 & Pl & Out) Os IH]; intros F F' HF p c L; cbn [fold_res] in HF; [injection HF as <-; reflexivity|].
    apply bind_ok in HF as (F1 & U & HF). rewrite (IH F1 F' HF p c L).
    apply (plane_source_E N AX x0 (fun p => lo <= coord AX p <= hi)%nat q s F F1); try assumption. intros r Hr. lia.
  Qed.
End Fold.
Lemma phi_E_in N H bs : forall bs', map_res (boundary_phi_E N H) bs = Ok bs' -> In (Periodic AY) bs -> In (Periodic AY) bs'.
Proof.
  induction bs as [|b bs IH]; intros bs' M I; [destruct I|]. cbn [map_res] in M. apply bind_ok in M as (b' & B & M). apply bind_ok in M as (r & M & E). injection E as <-.
  destruct I as [->|I]; [left; cbn in B; injection B as <-; reflexivity|right; apply IH; [exact M|exact I]].
Qed.
Lemma phi_H_in N H bs : forall bs', map_res (boundary_phi_H N H) bs = Ok bs' -> In (Periodic AY) bs -> In (Periodic AY) bs'.
Proof.
  induction bs as [|b bs IH]; intros bs' M I; [destruct I|]. cbn [map_res] in M. apply bind_ok in M as (b' & B & M). apply bind_ok in M as (r & M & E). injection E as <-.
  destruct I as [->|I]; [left; cbn in B; injection B as <-; reflexivity|right; apply IH; [exact M|exact I]].
Qed.

(** * One step of the three rows *)
Definition hx (g : grid) (x j : nat) : R := g_H g (x, j, 0%nat) AX.
Definition hy (g : grid) (x j : nat) : R := g_H g (x, j, 0%nat) AY.
Lemma step_rows eps sig g g' lo hi : three_rows g eps sig lo hi -> step g = Ok g' ->
  three_rows g' eps sig lo hi /\ g_courant g' = g_courant g /\ rows_agree g' lo hi
  /\ (forall x j, (lo < x <= hi)%nat -> (1 <= j <= 2)%nat ->
       ez g' x j = ez g x j * ((1 - sig x) / (1 + sig x)) + g_courant g * / eps x * (hy g x j - hy g (x - 1) j - (hx g x j - hx g x (j - 1))) / (1 + sig x))
  /\ (forall x j, (lo <= x < hi)%nat -> (j <= 1)%nat -> hy g' x j = hy g x j + g_courant g * (ez g' (S x) j - ez g' x j))
  /\ (forall x j, (lo <= x <= hi)%nat -> (j <= 1)%nat -> hx g' x j = hx g x j - g_courant g * (ez g' x (S j) - ez g' x j)).
Proof.
  intros ((Hh & Hb & Hs & Hm) & NY & NZ & I & Hx) St. apply step_inv in St as (g1 & g2 & UE & UH & ->).
  apply update_E_inv in UE as (bs & E3 & ds & MB & FE & _ & ->). apply update_H_inv in UH as (bs' & H3 & ds' & MB' & FH & _ & ->).
  cbn [with_fields g_boundaries g_sources g_N g_E g_H g_steps g_detectors g_courant g_im] in *.
  assert (OB : Forall (outside (g_N g) lo hi) bs) by (apply (phi_E_outside _ _ _ _ _ _ MB); exact Hb).
  assert (OB' : Forall (outside (g_N g) lo hi) bs') by (apply (phi_H_outside _ _ _ _ _ _ MB'); exact OB).
  pose proof (phi_E_in _ _ _ _ MB I) as I1. pose proof (phi_H_in _ _ _ _ MB' I1) as I2.
  assert (G : forall x j, (x <= hi)%nat -> (j < 3)%nat -> in_grid (g_N g) (x, j, 0)%nat) by (intros x j A B [| |]; cbn; lia).
  assert (EV : forall x j c, (lo <= x <= hi)%nat -> (j < 3)%nat -> E3 (x, j, 0)%nat c = bulk_E g (x, if (j =? 0)%nat then 2%nat else j, 0)%nat c).
  { intros x j c L J. rewrite (src_E (g_N g) lo hi _ _ Hs _ _ FE (x, j, 0)%nat c L). rewrite (colsE (g_N g) lo hi) by (try assumption; apply G; lia).
    rewrite (up_E (g_N g) lo hi) by (try assumption; lia). reflexivity. }
  pose proof (sources_H _ _ _ _ _ Hs _ _ FH) as HV0.
  assert (HV : forall x j c, (lo <= x <= hi)%nat -> (j < 3)%nat -> H3 (x, j, 0)%nat c
     = g_H g (x, if (j =? 2)%nat then 0%nat else j, 0)%nat c - g_courant g * g_im g (x, if (j =? 2)%nat then 0%nat else j, 0)%nat c * curl_E (g_N g) E3 (x, if (j =? 2)%nat then 0%nat else j, 0)%nat c).
  { intros x j c L J. rewrite HV0. rewrite (colsH (g_N g) lo hi) by (try assumption; apply G; lia). rewrite (down_H (g_N g) lo hi) by (try assumption; lia). reflexivity. }
  clear HV0 FE FH. unfold ez, hy, hx. cbn [with_fields g_boundaries g_sources g_N g_E g_H g_steps g_detectors g_courant g_im].
  split; [split; [split; [exact Hh|]; split; [exact OB'|]; split; [exact Hs|exact Hm]|auto]|]. split; [reflexivity|]. split; [|split; [|split]].
  - intros x L. unfold ez. cbn [with_fields g_E g_H]. split; [rewrite !EV by lia; reflexivity|]. intros c. rewrite !HV by lia. reflexivity.
  - intros x j L J. rewrite EV by lia. replace (j =? 0)%nat with false by (symmetry; apply Nat.eqb_neq; lia). unfold bulk_E.
    destruct (Hm (x, j, 0)%nat (G x j ltac:(lia) ltac:(lia)) ltac:(cbn [coord]; lia)) as (M1 & M2 & _). cbn [coord] in M1, M2. rewrite M1, M2.
    unfold curl_H, dbwd. cbn [coord setc]. destruct (Nat.leb_spec 1 x); [|lia]. destruct (Nat.leb_spec 1 j); [|lia]. reflexivity.
  - intros x j L J. rewrite HV by lia. replace (j =? 2)%nat with false by (symmetry; apply Nat.eqb_neq; lia).
    destruct (Hm (x, j, 0)%nat (G x j ltac:(lia) ltac:(lia)) ltac:(cbn [coord]; lia)) as (_ & _ & M3). rewrite M3.
    unfold curl_E, dfwd. cbn [coord setc]. rewrite NZ. destruct (Nat.ltb_spec (S x) (g_N g AX)); [|lia]. cbn [Nat.ltb Nat.leb]. ring.
  - intros x j L J. rewrite HV by lia. replace (j =? 2)%nat with false by (symmetry; apply Nat.eqb_neq; lia).
    rewrite (Hx (x, j, 0)%nat (G x j ltac:(lia) ltac:(lia)) ltac:(cbn [coord]; lia)).
    unfold curl_E, dfwd. cbn [coord setc]. rewrite NZ, NY. destruct (Nat.ltb_spec (S j) 3); [|lia]. cbn [Nat.ltb Nat.leb]. ring.
Qed.

Lemma agree_step eps sig g g' lo hi : three_rows g eps sig lo hi -> step g = Ok g' -> three_rows g' eps sig lo hi /\ rows_agree g' lo hi.
Proof. intros T S. destruct (step_rows _ _ _ _ _ _ T S) as (A & _ & B & _). split; assumption. Qed.

Lemma wave_equation eps sig g1 g2 g3 lo hi x j : three_rows g1 eps sig lo hi -> rows_agree g1 lo hi -> step g1 = Ok g2 -> step g2 = Ok g3 ->
  (lo < x < hi)%nat -> (1 <= j <= 2)%nat -> 1 + sig x <> 0 -> eps x <> 0 ->
  (1 + sig x) * ez g3 x j - 2 * ez g2 x j + (1 - sig x) * ez g1 x j
  = g_courant g1 ^ 2 / eps x * (ez g2 (S x) j + ez g2 (x - 1) j - 2 * ez g2 x j + 2 * (ez g2 x (3 - j) - ez g2 x j)).
Proof.
  intros T A S1 S2 L J Ns Ne. destruct (step_rows _ _ _ _ _ _ T S1) as (T2 & C2 & A2 & E2 & Y2 & X2). destruct (step_rows _ _ _ _ _ _ T2 S2) as (_ & _ & _ & E3 & _ & _).
  rewrite (E3 x j), C2 by lia. pose proof (E2 x j ltac:(lia) ltac:(lia)) as Q.
  assert (Q' : ez g2 x j * (1 + sig x) = ez g1 x j * (1 - sig x) + g_courant g1 * / eps x * (hy g1 x j - hy g1 (x - 1) j - (hx g1 x j - hx g1 x (j - 1)))) by (rewrite Q; field; auto).
  assert (W2 : forall y, (lo <= y <= hi)%nat -> ez g2 y 0 = ez g2 y 2 /\ hy g2 y 2 = hy g2 y 0 /\ hx g2 y 2 = hx g2 y 0)
    by (intros y Ly; destruct (A2 y Ly) as [u v]; split; [exact u|split; apply v]).
  assert (W1 : forall y, (lo <= y <= hi)%nat -> hy g1 y 2 = hy g1 y 0 /\ hx g1 y 2 = hx g1 y 0)
    by (intros y Ly; destruct (A y Ly) as [u v]; split; apply v).
  assert (K : hy g2 x j - hy g2 (x - 1) j - (hx g2 x j - hx g2 x (j - 1)) - (hy g1 x j - hy g1 (x - 1) j - (hx g1 x j - hx g1 x (j - 1)))
    = g_courant g1 * (ez g2 (S x) j + ez g2 (x - 1) j - 2 * ez g2 x j + 2 * (ez g2 x (3 - j) - ez g2 x j))).
  { pose proof (W2 x ltac:(lia)) as (a1 & a2 & a3). pose proof (W2 (x - 1)%nat ltac:(lia)) as (b1 & b2 & b3). pose proof (W2 (S x) ltac:(lia)) as (d1 & _ & _).
    pose proof (W1 x ltac:(lia)) as (e1 & e2). pose proof (W1 (x - 1)%nat ltac:(lia)) as (f1 & f2).
    assert (R1 : S (x - 1) = x) by lia. assert (HJ : j = 1%nat \/ j = 2%nat) by lia. destruct HJ as [-> | ->]; cbn [Nat.sub].
    - rewrite !(Y2 _ 1%nat), !(X2 _ 1%nat), !(X2 _ 0%nat) by lia. rewrite R1. rewrite a1. ring.
    - rewrite a2, b2, a3, e1, e2, f1. rewrite !(Y2 _ 0%nat), !(X2 _ 1%nat), !(X2 _ 0%nat) by lia. rewrite R1. rewrite a1, b1, d1. ring. }
  transitivity (g_courant g1 * / eps x * (hy g2 x j - hy g2 (x - 1) j - (hx g2 x j - hx g2 x (j - 1)) - (hy g1 x j - hy g1 (x - 1) j - (hx g1 x j - hx g1 x (j - 1))))).
  - transitivity (ez g2 x j * (1 - sig x) + g_courant g1 * / eps x * (hy g2 x j - hy g2 (x - 1) j - (hx g2 x j - hx g2 x (j - 1))) - 2 * ez g2 x j + (1 - sig x) * ez g1 x j).
    + field. auto.
    + transitivity (g_courant g1 * / eps x * (hy g2 x j - hy g2 (x - 1) j - (hx g2 x j - hx g2 x (j - 1))) - ez g2 x j * (1 + sig x) + ez g1 x j * (1 - sig x)); [ring|]. rewrite Q'. ring.
  - rewrite K. field. exact Ne.
Qed.

(** * Waves of one frequency *)
Lemma Re_cscal_add (a b : C) : Re (a + b)%C = Re a + Re b. Proof. reflexivity. Qed.
Lemma wave_amplitude lam co w e s (B0 B1 B2 : C) n : co <> 0 -> e <> 0 -> sin w <> 0 ->
  (forall k, (k <= 1)%nat -> let d (B : C) i := Re (B * Cis (- (w * INR (n + i))))%C in
     (1 + s) * d B1 (2 + k)%nat - 2 * d B1 (1 + k)%nat + (1 - s) * d B1 k = co ^ 2 / e * (d B2 (1 + k)%nat + d B0 (1 + k)%nat - 2 * d B1 (1 + k)%nat - lam * d B1 (1 + k)%nat)) ->
  (B2 + B0)%C = ((RtoC (2 + lam) - RtoC (4 * sin (w / 2) * e / co ^ 2) * (sin (w / 2), s * cos (w / 2))%R) * B1)%C.
Proof.
  intros Hc He Hw H.
  set (Z := ((B2 + B0) - (RtoC (2 + lam) - RtoC (4 * sin (w / 2) * e / co ^ 2) * (sin (w / 2), s * cos (w / 2))%R) * B1)%C).
  assert (K : forall k, (k <= 1)%nat -> Re (Z * Cis (- (w * INR (n + S k))))%C = 0).
  { intros k Hk. specialize (H k Hk). cbv beta zeta in H. set (t := w * INR (n + S k)) in *.
    replace (- (w * INR (n + (2 + k)))) with (- t - w) in H by (unfold t; replace (n + (2 + k))%nat with (S (n + S k)) by lia; rewrite (S_INR (n + S k)); ring).
    replace (- (w * INR (n + (1 + k)))) with (- t) in H by (unfold t; cbn [Nat.add]; ring).
    replace (- (w * INR (n + k))) with (- t + w) in H by (unfold t; replace (n + S k)%nat with (S (n + k)) by lia; rewrite (S_INR (n + k)); ring).
    assert (Ex : co ^ 2 / e * Re (Z * Cis (- t))%C = 0); [|apply Rmult_integral in Ex as [Ex|Ex]; [exfalso|exact Ex]].
    - destruct B0 as [b0 c0], B1 as [b1 c1], B2 as [b2 c2]. unfold Z, Cis, RtoC, Csub, Cadd, Cmul, Re, Im in *. cbn [fst snd] in *.
      assert (W1 : sin w = 2 * sin (w / 2) * cos (w / 2)) by (rewrite <- sin_2a; f_equal; field).
      assert (W2 : cos w = 1 - 2 * sin (w / 2) * sin (w / 2)) by (rewrite <- cos_2a_sin; f_equal; field).
      rewrite (cos_minus (- t) w), (sin_minus (- t) w), (cos_plus (- t) w), (sin_plus (- t) w), W1, W2 in H.
      set (S := sin (w / 2)) in *. set (K := cos (w / 2)) in *. set (ct := cos (- t)) in *. set (st := sin (- t)) in *.
      transitivity (co ^ 2 / e * (b2 * ct - c2 * st + (b0 * ct - c0 * st) - 2 * (b1 * ct - c1 * st) - lam * (b1 * ct - c1 * st))
         + 4 * S * (S * (b1 * ct - c1 * st) - s * K * (b1 * st + c1 * ct))); [field; split; assumption|].
      rewrite <- H. ring.
    - revert Ex. apply Rmult_integral_contrapositive_currified; [apply pow_nonzero; exact Hc|apply Rinv_neq_0_compat; exact He]. }
  assert (Z0 : Z = C0).
  { revert K. clear H. generalize Z. clear Z. intros [u v] K. pose proof (K 0%nat ltac:(lia)) as K0. pose proof (K 1%nat ltac:(lia)) as K1.
    replace (- (w * INR (n + 2))) with (- (w * INR (n + 1)) - w) in K1 by (replace (n + 2)%nat with (S (n + 1)) by lia; rewrite (S_INR (n + 1)); ring).
    set (t := - (w * INR (n + 1))) in *. unfold Cis, Cmul, Re, Im in K0, K1. cbn [fst snd] in K0, K1. rewrite cos_minus, sin_minus in K1.
    pose proof (sin2_cos2 t) as P. unfold Rsqr in P. set (ct := cos t) in *. set (st := sin t) in *.
    assert (Q : sin w * (u * st + v * ct) = 0).
    { transitivity ((u * (ct * cos w + st * sin w) - v * (st * cos w - ct * sin w)) - cos w * (u * ct - v * st)); [ring|]. rewrite K1, K0. ring. }
    apply Rmult_integral in Q as [Q|Q]; [contradiction|].
    assert (U : u = 0). { transitivity (u * (st * st + ct * ct)); [rewrite P; ring|]. transitivity (st * (u * st + v * ct) + ct * (u * ct - v * st)); [ring|]. rewrite Q, K0. ring. }
    assert (V : v = 0). { transitivity (v * (st * st + ct * ct)); [rewrite P; ring|]. transitivity (ct * (u * st + v * ct) - st * (u * ct - v * st)); [ring|]. rewrite Q, K0. ring. }
    rewrite U, V. reflexivity. }
  apply (proj1 (Csub_eq0 _ _)). exact Z0.
Qed.

Lemma run_two g g1 g2 : step g = Ok g1 -> step g1 = Ok g2 -> run_steps 1 g = Ok g1 /\ run_steps 2 g = Ok g2.
Proof. intros S1 S2. cbn. rewrite S1. cbn. rewrite S2. split; reflexivity. Qed.

Section Settled.
  Variables (eps sig : nat -> R) (w : R) (A : nat -> nat -> C) (g g1 g2 g3 : grid) (lo hi n : nat).
  Hypothesis (T : three_rows g eps sig lo hi) (Ag : rows_agree g lo hi) (S1 : step g = Ok g1) (S2 : step g1 = Ok g2) (S3 : step g2 = Ok g3).
  Hypothesis (Co : 0 < g_courant g) (Sw : sin w <> 0) (Po : forall x, (lo <= x <= hi)%nat -> 0 < eps x /\ 0 <= sig x) (Se : rows_settled w A g n lo hi 3).

  Lemma runs : run_steps 0 g = Ok g /\ run_steps 1 g = Ok g1 /\ run_steps 2 g = Ok g2 /\ run_steps 3 g = Ok g3.
  Proof. cbn. rewrite S1. cbn. rewrite S2. cbn. rewrite S3. repeat split. Qed.
  Lemma equations x j k : (lo < x < hi)%nat -> (1 <= j <= 2)%nat -> (k <= 1)%nat -> let d j x i := Re (A j x * Cis (- (w * INR (n + i))))%C in
    (1 + sig x) * d j x (2 + k)%nat - 2 * d j x (1 + k)%nat + (1 - sig x) * d j x k
    = g_courant g ^ 2 / eps x * (d j (S x) (1 + k)%nat + d j (x - 1)%nat (1 + k)%nat - 2 * d j x (1 + k)%nat + 2 * (d (3 - j)%nat x (1 + k)%nat - d j x (1 + k)%nat)).
  Proof.
    intros L J Hk. cbv beta zeta. destruct runs as (R0 & R1 & R2 & R3). destruct (Po x ltac:(lia)) as [P1 P2].
    destruct (step_rows _ _ _ _ _ _ T S1) as (T1 & C1 & A1 & _).
    assert (D : forall i gi y r, run_steps i g = Ok gi -> (i <= 3)%nat -> (lo <= y <= hi)%nat -> (1 <= r <= 2)%nat -> Re (A r y * Cis (- (w * INR (n + i))))%C = ez gi y r)
      by (intros i gi y r Ri Hi Hy Hr; symmetry; apply Se; assumption).
    assert (HK : k = 0%nat \/ k = 1%nat) by lia. destruct HK as [-> | ->]; cbn [Nat.add].
    - rewrite !(D 2%nat g2), !(D 1%nat g1), !(D 0%nat g) by (try assumption; lia). apply (wave_equation eps sig g g1 g2 lo hi); try assumption; lra.
    - rewrite !(D 3%nat g3), !(D 2%nat g2), !(D 1%nat g1) by (try assumption; lia). rewrite <- C1. apply (wave_equation eps sig g1 g2 g3 lo hi); try assumption; lra.
  Qed.
  Lemma mean_balanced x : (lo < x < hi)%nat -> balanced (g_courant g) w eps sig (mean_row A) x.
  Proof.
    intros L. destruct (Po x ltac:(lia)) as [P1 P2]. unfold balanced. replace 2 with (2 + 0) at 1 by ring.
    apply (wave_amplitude 0 (g_courant g) w (eps x) (sig x) _ _ _ n); [lra|lra|exact Sw|]. intros k Hk. cbv beta zeta.
    pose proof (equations x 1 k L ltac:(lia) Hk) as Q1. pose proof (equations x 2 k L ltac:(lia) Hk) as Q2. cbv beta zeta in Q1, Q2. cbn [Nat.sub] in Q1, Q2.
    assert (M : forall y t, Re (mean_row A y * t)%C = / 2 * (Re (A 1%nat y * t)%C + Re (A 2%nat y * t)%C)) by (intros y [u v]; unfold mean_row, Cscal, Cadd, Cmul, Re, Im; cbn [fst snd]; ring).
    rewrite !M. clear M. match goal with |- ?l = ?r => transitivity (/ 2 * (((1 + sig x) * Re (A 1%nat x * Cis (- (w * INR (n + (2 + k)))))%C - 2 * Re (A 1%nat x * Cis (- (w * INR (n + (1 + k)))))%C + (1 - sig x) * Re (A 1%nat x * Cis (- (w * INR (n + k))))%C)
       + ((1 + sig x) * Re (A 2%nat x * Cis (- (w * INR (n + (2 + k)))))%C - 2 * Re (A 2%nat x * Cis (- (w * INR (n + (1 + k)))))%C + (1 - sig x) * Re (A 2%nat x * Cis (- (w * INR (n + k))))%C))); [ring|] end.
    rewrite Q1, Q2. field. lra.
  Qed.
  Lemma gap_equation x : (lo < x < hi)%nat ->
    (row_gap A (S x) + row_gap A (x - 1)%nat)%C = ((RtoC 6 - RtoC (4 * sin (w / 2) * eps x / g_courant g ^ 2) * (sin (w / 2), sig x * cos (w / 2))%R) * row_gap A x)%C.
  Proof.
    intros L. destruct (Po x ltac:(lia)) as [P1 P2]. replace 6 with (2 + 4) by ring.
    apply (wave_amplitude 4 (g_courant g) w (eps x) (sig x) _ _ _ n); [lra|lra|exact Sw|]. intros k Hk. cbv beta zeta.
    pose proof (equations x 1 k L ltac:(lia) Hk) as Q1. pose proof (equations x 2 k L ltac:(lia) Hk) as Q2. cbv beta zeta in Q1, Q2. cbn [Nat.sub] in Q1, Q2.
    assert (M : forall y t, Re (row_gap A y * t)%C = Re (A 1%nat y * t)%C - Re (A 2%nat y * t)%C) by (intros y [u v]; unfold row_gap, Csub, Cmul, Re, Im; cbn [fst snd]; ring).
    rewrite !M. clear M. match goal with |- ?l = ?r => transitivity (((1 + sig x) * Re (A 1%nat x * Cis (- (w * INR (n + (2 + k)))))%C - 2 * Re (A 1%nat x * Cis (- (w * INR (n + (1 + k)))))%C + (1 - sig x) * Re (A 1%nat x * Cis (- (w * INR (n + k))))%C)
       - ((1 + sig x) * Re (A 2%nat x * Cis (- (w * INR (n + (2 + k)))))%C - 2 * Re (A 2%nat x * Cis (- (w * INR (n + (1 + k)))))%C + (1 - sig x) * Re (A 2%nat x * Cis (- (w * INR (n + k))))%C)); [ring|] end.
    rewrite Q1, Q2. field. lra.
  Qed.
  Lemma evens_out q M d x : 0 < q -> (forall x, (lo <= x <= hi)%nat -> 2 * q <= 6 - 4 * sin (w / 2) ^ 2 * eps x / g_courant g ^ 2) ->
    (forall x, (lo <= x <= hi)%nat -> Cabs (row_gap A x) <= M) -> (lo + d <= x)%nat -> (x + d <= hi)%nat -> Cabs (row_gap A x) <= M / q ^ d.
  Proof.
    intros Q0 Q HM. revert x. induction d as [|d IH]; intros x L1 L2; [cbn; unfold Rdiv; rewrite Rinv_1, Rmult_1_r; apply HM; lia|].
    pose proof (gap_equation x ltac:(lia)) as E. apply (f_equal Cabs) in E. rewrite Cabs_mul in E.
    pose proof (Proof_Plots.Cabs_tri (row_gap A (S x)) (row_gap A (x - 1)%nat)) as Tr. rewrite E in Tr.
    pose proof (IH (S x) ltac:(lia) ltac:(lia)) as I1. pose proof (IH (x - 1)%nat ltac:(lia) ltac:(lia)) as I2.
    match type of Tr with Cabs ?c * _ <= _ => assert (B : 2 * q <= Cabs c) end.
    { eapply Rle_trans; [|apply Cabs_Re]. eapply Rle_trans; [apply (Q x); lia|]. unfold RtoC, Csub, Cmul, Re, Im. cbn [fst snd]. right. unfold Rdiv. ring. }
    pose proof (Cabs_nonneg (row_gap A x)) as Nn.
    assert (J : 2 * q * Cabs (row_gap A x) <= 2 * (M / q ^ d)) by (eapply Rle_trans; [apply Rmult_le_compat_r; [exact Nn|exact B]|lra]).
    cbn [pow]. apply (Rmult_le_reg_l (2 * q)); [lra|]. eapply Rle_trans; [exact J|]. right. field. split; [apply pow_nonzero|]; lra.
  Qed.
End Settled.

Lemma mean_recorded w A g n lo hi m k gk x : rows_settled w A g n lo hi m -> run_steps k g = Ok gk -> (k <= m)%nat -> (lo <= x <= hi)%nat -> ez gk x 0 = ez gk x 2 ->
  column_mean gk x = Re ((mean_row A x - Cscal (/ 6) (row_gap A x)) * Cis (- (w * INR (n + k))))%C
  /\ Rabs (column_mean gk x - Re (mean_row A x * Cis (- (w * INR (n + k))))%C) <= Cabs (row_gap A x) / 6.
Proof.
  intros Se R Hk L E0. pose proof (Se k gk x 1%nat Hk R L ltac:(lia)) as E1. pose proof (Se k gk x 2%nat Hk R L ltac:(lia)) as E2.
  unfold column_mean. fold (ez gk x 0) (ez gk x 1) (ez gk x 2). rewrite E0, E1, E2. set (t := Cis (- (w * INR (n + k)))).
  assert (V : (Re (A 2%nat x * t)%C + Re (A 1%nat x * t)%C + Re (A 2%nat x * t)%C) / 3 = Re ((mean_row A x - Cscal (/ 6) (row_gap A x)) * t)%C).
  { unfold mean_row, row_gap, Cscal, Csub, Cadd, Cmul, Re, Im. cbn [fst snd]. field. }
  split; [exact V|]. rewrite V.
  replace (Re ((mean_row A x - Cscal (/ 6) (row_gap A x)) * t)%C - Re (mean_row A x * t)%C) with (- / 6 * Re (row_gap A x * t)%C)
    by (unfold Cscal, Csub, Cmul, Re, Im; cbn [fst snd]; ring).
  rewrite Rabs_mult, (Rabs_left (- / 6)) by lra. pose proof (Cabs_Re (row_gap A x * t)%C) as [U V']. rewrite Cabs_mul in U, V'.
  replace (Cabs t) with 1 in * by (unfold Cabs, t; rewrite Cis_norm, sqrt_1; reflexivity). rewrite Rmult_1_r in U, V'.
  assert (Rabs (Re (row_gap A x * t)%C) <= Cabs (row_gap A x)) by (apply Rabs_le; lra). lra.
Qed.
