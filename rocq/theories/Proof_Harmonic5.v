From Coq Require Import Reals ZArith String List Bool Lra Lia Psatz.
From Verif Require Import Base BaseLemmas Cplx CplxLemmas PyVal Spec_Config Model_Units Model_Coeffs Model_FDTD Model_Register Spec_FDTD Spec_Register Model_Layout Spec_Layout
  Proof_Register Proof_Material Proof_Layout Proof_Vacuum Proof_Propagate Proof_Wave Spec_Harmonic Proof_Harmonic Proof_Harmonic2.
Import ListNotations.
Open Scope R_scope.

(** ** A steady oscillation is balanced *)

Definition next_E (co w e s : R) (A : nat -> C) (n x : nat) : R :=
  EW w A n x AZ * ((1 - s) / (1 + s)) + co * / e * (HW co w A n x AY - HW co w A n (x - 1) AY) / (1 + s).

Lemma step_value eps sig w A g g' lo hi n : free_columns g eps sig lo hi -> oscillates w A g n lo hi -> step g = Ok g' ->
  free_columns g' eps sig lo hi /\ g_courant g' = g_courant g /\ g_N g' = g_N g
  /\ forall p, in_grid (g_N g) p -> (lo < coord AX p < hi)%nat ->
       g_E g' p AZ = next_E (g_courant g) w (eps (coord AX p)) (sig (coord AX p)) A n (coord AX p).
Proof.
  intros (Hh & Hb & Hs & Hm) O St. apply oscillates_columns in O as [OE OH].
  unfold step in St. destruct (update_E g) as [g1|] eqn:U1; [|discriminate]. cbn [bind] in St.
  destruct (update_H g1) as [g2|] eqn:U2; [|discriminate]. cbn [bind] in St. injection St as <-.
  unfold update_E in U1. destruct (map_res (boundary_phi_E (g_N g) (g_H g)) (g_boundaries g)) as [bs|] eqn:MB; [|discriminate]. cbn [bind] in U1.
  destruct (fold_res _ (g_sources g) _) as [E3|] eqn:FE in U1; [|discriminate]. cbn [bind] in U1.
  destruct (map_res _ (g_detectors g)) as [ds|]; [|discriminate]. cbn [bind] in U1. injection U1 as <-.
  unfold update_H in U2. cbn [with_fields g_boundaries g_sources g_N g_E g_H g_steps g_detectors] in U2.
  destruct (map_res (boundary_phi_H (g_N g) E3) bs) as [bs'|] eqn:MB'; [|discriminate]. cbn [bind] in U2.
  destruct (fold_res _ (g_sources g) _) as [H3|] eqn:FH in U2; [|discriminate]. cbn [bind] in U2.
  destruct (map_res _ ds) as [ds'|]; [|discriminate]. cbn [bind] in U2. injection U2 as <-.
  assert (OB : Forall (outside (g_N g) lo hi) bs) by (apply (phi_E_outside _ _ _ _ _ _ MB); exact Hb).
  assert (OB' : Forall (outside (g_N g) lo hi) bs') by (apply (phi_H_outside _ _ _ _ _ _ MB'); exact OB).
  set (W' := fun (x : nat) (c : axis) => match c with AZ => next_E (g_courant g) w (eps x) (sig x) A n x | _ => 0 end).
  assert (C1' : column_field (g_N g) (S lo) (hi - 1) (bulk_E g) W').
  { intros p c G L. assert (Lx : (lo <= coord AX p < hi)%nat) by lia. unfold bulk_E.
    destruct (Hm p G ltac:(lia)) as (M1 & M2 & M3).
    pose proof (half_open _ _ _ _ _ OH ltac:(lia)) as OH'.
    rewrite (OE p c G) by lia. unfold curl_H. destruct c.
    - rewrite (col_dbwd_0 _ _ _ _ _ AY AZ p OH' G) by (try discriminate; lia). rewrite (col_dbwd_0 _ _ _ _ _ AZ AY p OH' G) by (try discriminate; lia).
      cbn [EW W']. unfold Rdiv. ring.
    - rewrite (col_dbwd_0 _ _ _ _ _ AZ AX p OH' G) by (try discriminate; lia). rewrite (col_dbwd_x _ _ _ _ _ AZ p OH' G) by lia.
      cbn [EW HW W']. unfold Rdiv. ring.
    - rewrite (col_dbwd_x _ _ _ _ _ AY p OH' G) by lia. rewrite (col_dbwd_0 _ _ _ _ _ AY AX p OH' G) by (try discriminate; lia).
      rewrite M1, M2, Rminus_0_r. reflexivity. }
  assert (CE : column_field (g_N g) (S lo) (hi - 1) E3 W').
  { apply (sources_E (g_N g) lo hi (S lo) (hi - 1) (g_steps g) (g_sources g) Hs ltac:(lia) ltac:(lia) _ _ _ FE).
    apply (boundaries_E (g_N g) lo hi); try assumption; lia. }
  split; [|split; [reflexivity|split; [reflexivity|]]].
  - split; [exact Hh|]. split; [exact OB'|]. split; [exact Hs|exact Hm].
  - intros p G L. cbn [with_fields g_E]. apply (CE p AZ G). lia.
Qed.

(** what is missing to balance *)
Definition lack (co w e s : R) (A : nat -> C) (x : nat) : C :=
  (A (S x) + A (x - 1)%nat - (RtoC 2 - RtoC (4 * sin (w / 2) * e / co ^ 2) * (sin (w / 2), (s * cos (w / 2))%R)) * A x)%C.

Lemma next_E_lack co w e s A n x : sin (w / 2) <> 0 -> co <> 0 -> e <> 0 -> 1 + s <> 0 -> (1 <= x)%nat ->
  next_E co w e s A n x = EW w A (S n) x AZ
    + co * / e / (1 + s) * Re (Ci * RtoC (co / (2 * sin (w / 2))) * lack co w e s A x * Cis (- (w * (INR n + / 2))))%C.
Proof.
  intros HS HC He Hs Hx. set (Z := lack co w e s A x).
  set (A' := fun y : nat => if (y =? S x)%nat then (A (S x) - Z)%C else A y).
  assert (X1 : A' (S x) = (A (S x) - Z)%C) by (unfold A'; rewrite Nat.eqb_refl; reflexivity).
  assert (X2 : forall y, (y <= x)%nat -> A' y = A y) by (intros y Hy; unfold A'; destruct (Nat.eqb_spec y (S x)); [lia|reflexivity]).
  assert (B : balanced co w (fun _ => e) (fun _ => s) A' x).
  { unfold balanced. rewrite X1, !X2 by lia. unfold Z, lack. ring. }
  pose proof (E_equation co w e s A' n x HS HC He Hs B Hx) as Eq.
  unfold EW, HW in Eq. replace (S (x - 1)) with x in Eq by lia. rewrite X1, !X2 in Eq by lia.
  unfold next_E, EW, HW. replace (S (x - 1)) with x by lia. rewrite <- Eq. clear Eq B X1 X2 A'.
  set (T := Cis (- (w * (INR n + / 2)))). set (k := (Ci * RtoC (co / (2 * sin (w / 2))))%C).
  assert (L : forall u z : C, Re (k * (u - z) * T)%C = Re (k * u * T)%C - Re (k * z * T)%C).
  { intros u z. replace (k * (u - z) * T)%C with (k * u * T - k * z * T)%C by ring. cbn. ring. }
  replace (A (S x) - Z - A x)%C with (A (S x) - A x - Z)%C by ring. rewrite (L (A (S x) - A x)%C Z). field. split; assumption.
Qed.

Lemma steady eps sig w A g g1 g2 lo hi n : free_columns g eps sig lo hi -> sin w <> 0 -> 0 < g_courant g ->
  (forall x, (lo <= x <= hi)%nat -> 0 < eps x /\ 0 <= sig x) -> (0 < g_N g AY)%nat -> (0 < g_N g AZ)%nat ->
  step g = Ok g1 -> step g1 = Ok g2 -> oscillates w A g n lo hi -> oscillates w A g1 (S n) lo hi -> oscillates w A g2 (S (S n)) lo hi ->
  forall x, (lo < x < hi)%nat -> balanced (g_courant g) w eps sig A x.
Proof.
  intros F Sw HC Hp NY NZ S1 S2 O0 O1 O2 x Hx. pose proof F as (Hh & _).
  destruct (step_value _ _ _ _ _ _ _ _ _ F O0 S1) as (F1 & C1' & N1 & V1).
  destruct (step_value _ _ _ _ _ _ _ _ _ F1 O1 S2) as (_ & _ & N2 & V2).
  set (p := (x, 0, 0)%nat). assert (G : in_grid (g_N g) p) by (intros [| |]; cbn [coord p]; lia).
  destruct (Hp x ltac:(lia)) as [P1 P2]. rewrite N1, C1' in V2.
  assert (HS : sin (w / 2) <> 0).
  { intros H. apply Sw. replace w with (2 * (w / 2)) by field. rewrite sin_2a, H. ring. }
  set (Z := lack (g_courant g) w (eps x) (sig x) A x).
  set (Y := (Ci * RtoC (g_courant g / (2 * sin (w / 2))) * Z * Cis (- (w * (INR n + / 2))))%C).
  assert (Nz : g_courant g * / eps x / (1 + sig x) <> 0).
  { unfold Rdiv. repeat apply Rmult_integral_contrapositive_currified; try apply Rinv_neq_0_compat; lra. }
  assert (Y1 : Re Y = 0).
  { specialize (V1 p G Hx). cbn [p coord] in V1. rewrite next_E_lack in V1 by (try assumption; try lra; lia). fold Z in V1. fold Y in V1.
    assert (E1 : g_E g1 p AZ = EW w A (S n) x AZ). { apply (O1 p AZ); [rewrite N1; exact G|cbn [p coord]; lia]. }
    fold p in V1. rewrite E1 in V1. apply Rmult_eq_reg_l with (g_courant g * / eps x / (1 + sig x)); [lra|exact Nz]. }
  assert (Y2 : Re (Y * Cis (- w))%C = 0).
  { specialize (V2 p G Hx). cbn [p coord] in V2. rewrite next_E_lack in V2 by (try assumption; try lra; lia). fold Z in V2.
    replace (Ci * RtoC (g_courant g / (2 * sin (w / 2))) * Z * Cis (- (w * (INR (S n) + / 2))))%C with (Y * Cis (- w))%C in V2.
    - assert (E2 : g_E g2 p AZ = EW w A (S (S n)) x AZ). { apply (O2 p AZ); [rewrite N2, N1; exact G|cbn [p coord]; lia]. }
      fold p in V2. rewrite E2 in V2. apply Rmult_eq_reg_l with (g_courant g * / eps x / (1 + sig x)); [lra|exact Nz].
    - unfold Y. replace (- (w * (INR (S n) + / 2))) with (- (w * (INR n + / 2)) + - w) by (rewrite S_INR; ring). rewrite Cis_add. ring. }
  assert (Y0 : Y = C0).
  { destruct Y as [yr yi]. cbn in Y1, Y2. rewrite cos_neg, sin_neg, Y1 in Y2. apply Ceq; cbn; [exact Y1|].
    apply Rmult_eq_reg_l with (sin w); [lra|exact Sw]. }
  assert (Z0 : Z = C0).
  { assert (D1 : Cis (- (w * (INR n + / 2))) <> C0).
    { intros H. pose proof (sin2_cos2 (- (w * (INR n + / 2)))) as Q. unfold Cis in H. injection H as H1 H2. unfold Rsqr in Q. rewrite H1, H2 in Q. lra. }
    assert (D2 : (Ci * RtoC (g_courant g / (2 * sin (w / 2))))%C <> C0).
    { intros H. apply (f_equal snd) in H. cbn in H. assert (K : g_courant g / (2 * sin (w / 2)) <> 0).
      { apply Rmult_integral_contrapositive_currified; [lra|]. apply Rinv_neq_0_compat. lra. } apply K. lra. }
    unfold Y in Y0. set (kk := (Ci * RtoC (g_courant g / (2 * sin (w / 2))))%C) in *. set (T := Cis (- (w * (INR n + / 2)))) in *.
    transitivity ((kk * Z * T) / (kk * T))%C; [field; split; [exact D1|exact D2]|]. rewrite Y0. field. split; [exact D1|exact D2]. }
  unfold balanced. apply (proj1 (Csub_eq0 _ _)). exact Z0.
Qed.

(** ** The simulations NIDN sets up *)

Lemma source_keeps c wl g : proper c -> known_kinds c -> 0 < wl ->
  add_source (Rtrunc (f_src_x c * f_scaling c)) (Rtrunc (f_src_y c * f_scaling c)) (wl / SPEED_OF_LIGHT) (f_pulse c) (f_source c) (frame_grid c) = Ok g ->
  g_courant g = 99 / 100 / sqrt 2 /\ g_spacing g = UNIT_MAGNITUDE / f_scaling c /\ g_time_step g = g_courant g * g_spacing g / SPEED_OF_LIGHT
  /\ g_N g AX = columns c /\ g_N g AY = 3%nat /\ g_N g AZ = 1%nat.
Proof.
  intros P K W A. destruct (source_ok c wl P K W) as (src & _ & E). rewrite E in A. injection A as <-.
  cbn [add_source_ named frame_grid g_courant g_time_step g_spacing g_N shape_of]. replace (INR 2) with 2 by (cbn; ring). repeat split.
Qed.

Lemma layers_keep s T freq eps : forall i x0 x1 g g', add_layers s T freq i x0 x1 eps g = Ok g' ->
  g_courant g' = g_courant g /\ g_spacing g' = g_spacing g /\ g_time_step g' = g_time_step g.
Proof.
  induction eps as [|e r IH]; intros i x0 x1 g g' H; cbn [add_layers] in H; [injection H as <-; auto|].
  apply bind_ok in H as (g1 & H1 & H).
  assert (K : g_courant g1 = g_courant g /\ g_spacing g1 = g_spacing g /\ g_time_step g1 = g_time_step g).
  { unfold add_object, assign in H1. destruct (setitem _ _ g) as [h [|]] eqn:E; [discriminate|]. inversion H1; subst h.
    apply register_object_inv in E as (x & y & z & lo & hi & _ & _ & _ & _ & _ & A). intuition. }
  destruct r as [|e2 r]; [injection H as <-; exact K|].
  destruct (get T i); [|discriminate]. destruct (get T (S i)); [|discriminate]. cbn [bind] in H.
  apply IH in H. intuition congruence.
Qed.

Lemma init_time_step c obj wl g : proper c -> 1 <= f_scaling c * f_pml c -> known_kinds c -> 0 < wl -> init_fdtd c obj wl = Ok g ->
  g_courant g = 99 / 100 / sqrt 2 /\ g_spacing g = UNIT_MAGNITUDE / f_scaling c /\ g_time_step g = g_courant g * g_spacing g / SPEED_OF_LIGHT.
Proof.
  intros P H1 K W I. rewrite (init_split c obj wl P H1) in I. apply bind_ok in I as (g0 & A & I).
  destruct (source_keeps c wl g0 P K W A) as (Q1 & Q2 & Q3 & _). destruct obj as [slice|]; [|injection I as <-; auto].
  cbv zeta in I. destruct (get (f_thick c) 0); [|discriminate]. cbn [bind] in I. destruct (get slice 0); [|discriminate]. cbn [bind] in I.
  destruct (get _ 0); [|discriminate]. cbn [bind] in I. apply layers_keep in I as (K1 & K2 & K3). rewrite K1, K2, K3. auto.
Qed.

Lemma in_plane c wl s N x : the_source c wl s -> N AX = columns c -> Rtrunc (f_src_x c * f_scaling c) = Z.of_nat x -> source_in_plane N AX x s.
Proof.
  intros (sg & _ & _ & S) NX E. assert (Q : forall y p, resolve3 N (Rtrunc (f_src_x c * f_scaling c), y, 0%Z) = Ok p -> coord AX p = x).
  { intros y p R0. unfold resolve3 in R0. rewrite E in R0. apply bind_ok in R0 as (i & Ri & R0). apply bind_ok in R0 as (j & _ & R0). apply bind_ok in R0 as (k & _ & R0).
    injection R0 as <-. cbn [coord]. unfold resolve in Ri.
    destruct ((0 <=? Z.of_nat x) && (Z.of_nat x <? Z.of_nat (N AX)))%Z; [injection Ri as <-; lia|].
    destruct (Z.ltb_spec (Z.of_nat x) 0) as [L|L]; [lia|]. rewrite andb_false_r in Ri. discriminate. }
  destruct S as [[_ ->]|[_ (prof & -> & _)]].
  - intros p R0. apply (Q _ p R0).
  - intros cell p I R0. cbn in I. destruct I as [<-|[<-|[<-|[]]]]; apply (Q _ p R0).
Qed.

Lemma layer_of c x n : (edge c 0 <= x < edge c n)%nat -> exists j, (j < n)%nat /\ (edge c j <= x < edge c (S j))%nat.
Proof.
  induction n as [|n IH]; intros H; [lia|]. destruct (Nat.lt_ge_cases x (edge c n)) as [L|L].
  - destruct IH as (j & J1 & J2); [lia|]. exists j. split; [lia|exact J2].
  - exists n. lia.
Qed.

Lemma simulation c slice wl row layers g s0 : proper c -> 1 <= f_scaling c * f_pml c -> known_kinds c -> 0 < wl ->
  f_thick c <> [] -> get slice 0 = Ok row -> get row 0 = Ok layers -> layers <> [] ->
  (forall e, In e layers -> 0 < fst e /\ 0 <= snd e) ->
  Rtrunc (f_src_x c * f_scaling c) = Z.of_nat s0 -> (pml_columns c <= S s0)%nat ->
  init_fdtd c (Some slice) wl = Ok g ->
  exists eps sig, free_columns g eps sig (S s0) (columns c - pml_columns c - 1)
    /\ stands_between eps sig (edge c 0) (edge c (length layers) - 1)
    /\ (2 <= edge c 0)%nat
    /\ forall j x, (j < length layers)%nat -> (edge c j <= x < edge c (S j))%nat ->
        eps x = fst (nth j layers (0, 0))
        /\ sig x = / 2 * (99 / 100 / sqrt 2) * conductivity (nth j layers (0, 0)) wl * (UNIT_MAGNITUDE / f_scaling c) * ETA_0 / fst (nth j layers (0, 0)).
Proof.
  intros P H1 K W T R0 L0 Le Pos Es Ps I.
  destruct (material_layout c slice wl row layers P H1 K W T R0 L0 Le) as [Ex Ly]. assert (LT : (length layers <= length (f_thick c))%nat) by (apply Ex; eauto).
  destruct (Ly g I) as (Fr & (src & Gs & Ts) & Mat). clear Ex Ly.
  destruct (init_time_step c _ wl g P H1 K W I) as (Co & Sp & _).
  destruct Fr as (NX & NY & NZ & _ & (b1 & b2 & Gb & (pm1 & -> & A1 & B1 & D1) & (pm2 & -> & A2 & B2 & D2)) & _ & _ & _ & _ & Im).
  pose proof (positions c P) as (Q1 & Q2 & Q3 & Q4 & Q5 & Q6 & _). pose proof (Q6 H1) as Q7. pose proof (edge_le_end c (length layers) P) as Q8.
  assert (Q9 : (edge c 0 <= edge c (length layers))%nat) by (apply edge_le; [exact P|lia]).
  assert (PC : (1 <= pml_columns c)%nat).
  { unfold pml_columns. assert (Z1 : (1 <= Z.of_nat (column c (f_pml c)))%Z); [|lia]. pose proof (pr_pml _ P). rewrite column_Z by (try (apply pr_scaling, P); lra).
    rewrite <- (Rfloor_IZR 1). apply Rfloor_le. lra. }
  set (eps := fun x : nat => if (x <? columns c)%nat then / g_ie g (x, 0, 0)%nat AZ else 1).
  set (sig := fun x : nat => if (x <? columns c)%nat then g_abs g (x, 0, 0)%nat AZ else 0).
  assert (InG : forall x, (x < columns c)%nat -> in_grid (g_N g) (x, 0, 0)%nat) by (intros x Hx [| |]; cbn [coord]; lia).
  assert (Vac : forall p, in_grid (g_N g) p -> (coord AX p < edge c 0 \/ edge c (length layers) <= coord AX p)%nat -> g_ie g p AZ = 1 /\ g_abs g p AZ = 0).
  { intros p G V. apply (Mat p AZ G), V. }
  assert (Lay : forall p j, in_grid (g_N g) p -> (j < length layers)%nat -> (edge c j <= coord AX p < edge c (S j))%nat ->
    0 < fst (nth j layers (0, 0)) /\ 0 <= snd (nth j layers (0, 0)) /\ g_ie g p AZ = / fst (nth j layers (0, 0))
    /\ g_abs g p AZ = / 2 * (99 / 100 / sqrt 2) * conductivity (nth j layers (0, 0)) wl * (UNIT_MAGNITUDE / f_scaling c) * ETA_0 / fst (nth j layers (0, 0))).
  { intros p j G Hj Hp. destruct (Mat p AZ G) as [_ M]. destruct (M j Hj Hp) as (M1 & _ & M2). specialize (M1 Logic.I).
    destruct (Pos (nth j layers (0, 0)) (nth_In _ _ Hj)) as [P1 P2]. repeat split; try assumption; [rewrite M1; field; lra|].
    rewrite M2, M1, Co, Sp. unfold Rdiv. ring. }
  assert (SigPos : forall j, (j < length layers)%nat -> 0 < fst (nth j layers (0, 0)) -> 0 <= snd (nth j layers (0, 0)) ->
     0 <= / 2 * (99 / 100 / sqrt 2) * conductivity (nth j layers (0, 0)) wl * (UNIT_MAGNITUDE / f_scaling c) * ETA_0 / fst (nth j layers (0, 0))).
  { intros j Hj P1 P2. pose proof (pr_scaling _ P) as Ps'. pose proof PI_RGT_0. assert (S2 : 0 < sqrt 2) by (apply sqrt_lt_R0; lra).
    assert (0 < SPEED_OF_LIGHT) by (unfold SPEED_OF_LIGHT; lra). assert (0 < MU_0) by (unfold MU_0; lra).
    assert (0 < EPS_0). { unfold EPS_0. apply Rmult_lt_0_compat; [lra|]. apply Rinv_0_lt_compat, pow_lt. lra. }
    assert (0 < UNIT_MAGNITUDE) by (unfold UNIT_MAGNITUDE; lra).
    assert (0 <= conductivity (nth j layers (0, 0)) wl).
    { unfold conductivity. assert (0 < SPEED_OF_LIGHT / wl) by (apply Rdiv_lt_0_compat; lra). repeat (apply Rmult_le_pos; try lra). }
    assert (0 < UNIT_MAGNITUDE / f_scaling c) by (apply Rdiv_lt_0_compat; lra). assert (0 < 99 / 100 / sqrt 2) by (apply Rdiv_lt_0_compat; lra).
    assert (0 < ETA_0) by (unfold ETA_0; apply Rmult_lt_0_compat; lra).
    apply Rmult_le_pos; [|left; apply Rinv_0_lt_compat, P1]. repeat (apply Rmult_le_pos; try lra). }
  exists eps, sig. split; [|split; [|split]].
  - split; [lia|]. rewrite Gb, Gs. split; [|split].
    + repeat constructor; try assumption.
      * rewrite B1, D1. exact Ps.
      * rewrite B2, D2. lia.
    + constructor; [|constructor]. exists s0. split; [apply (in_plane c wl src _ s0 Ts NX Es)|lia].
    + intros p G L. set (x := coord AX p) in *. assert (Hx : (x < columns c)%nat) by (rewrite <- NX; apply G). unfold eps, sig.
      rewrite (proj2 (Nat.ltb_lt _ _) Hx). rewrite Rinv_inv, Im. pose proof (InG x Hx) as G0.
      destruct (Nat.lt_ge_cases x (edge c 0)) as [V|V]; [|destruct (Nat.lt_ge_cases x (edge c (length layers))) as [V2|V2]].
      * destruct (Vac p G ltac:(fold x; lia)) as [-> ->]. destruct (Vac _ G0 ltac:(cbn [coord]; lia)) as [-> ->]. auto.
      * destruct (layer_of c x (length layers) ltac:(lia)) as (j & J1 & J2). destruct (Lay p j G J1 J2) as (_ & _ & -> & ->).
        destruct (Lay _ j G0 J1 J2) as (_ & _ & -> & ->). auto.
      * destruct (Vac p G ltac:(fold x; lia)) as [-> ->]. destruct (Vac _ G0 ltac:(cbn [coord]; lia)) as [-> ->]. auto.
  - intros x. unfold eps, sig. destruct (Nat.ltb_spec x (columns c)) as [Hx|Hx]; [|repeat split; lra]. pose proof (InG x Hx) as G0.
    destruct (Nat.lt_ge_cases x (edge c 0)) as [V|V]; [|destruct (Nat.lt_ge_cases x (edge c (length layers))) as [V2|V2]].
    + destruct (Vac _ G0 ltac:(cbn [coord]; lia)) as [-> ->]. rewrite Rinv_1. repeat split; lra.
    + destruct (layer_of c x (length layers) ltac:(lia)) as (j & J1 & J2). destruct (Lay _ j G0 J1 J2) as (P1 & P2 & -> & ->).
      rewrite Rinv_inv. repeat split; [exact P1|apply SigPos; assumption| |]; lia.
    + destruct (Vac _ G0 ltac:(cbn [coord]; lia)) as [-> ->]. rewrite Rinv_1. repeat split; lra.
  - lia.
  - intros j x Hj Hx. pose proof (edge_le c (S j) (length layers) P ltac:(lia)) as M1. unfold eps, sig.
    assert (Hc : (x < columns c)%nat) by lia. rewrite (proj2 (Nat.ltb_lt _ _) Hc). destruct (Lay _ j (InG x Hc) Hj Hx) as (P1 & P2 & -> & ->).
    rewrite Rinv_inv. auto.
Qed.
