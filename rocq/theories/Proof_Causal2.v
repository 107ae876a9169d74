(** The simulations NIDN sets up: the layers behind column [edge c j] are unknown at the
    reflection detector for a while. *)
From Coq Require Import Reals ZArith String List Bool Lra Lia Psatz.
From Verif Require Import Base BaseLemmas PyVal Spec_Config Model_Units Model_EpsGrid Model_Coeffs Spec_Coeffs Proof_Coeffs Model_FDTD Model_Register
  Spec_FDTD Spec_Register Model_Layout Spec_Layout Proof_FDTD Proof_Propagate Proof_Layout Proof_Spectrum Proof_Vacuum Proof_Window Proof_Readout Proof_Harmonic Proof_Harmonic5 Spec_Causal Proof_Causal.
Import ListNotations.
Open Scope R_scope.

Lemma bounds_list c wl : proper c -> 1 <= f_scaling c * f_pml c -> known_kinds c -> 0 < wl ->
  exists src, the_source c wl src /\ forall (slice : eps_slice) row layers g, f_thick c <> [] -> get slice 0 = Ok row -> get row 0 = Ok layers -> layers <> [] ->
    init_fdtd c (Some slice) wl = Ok g -> same_frame (add_source_ src (named (source_name c) (frame_grid c))) g.
Proof.
  intros P H1 HK Hw. destruct (source_ok c wl P HK Hw) as (src & HS & E). exists src. split; [exact HS|].
  intros slice row layers g HT HR HL HE H. rewrite (init_split c (Some slice) wl P H1), E in H. cbn [bind] in H. cbv zeta in H.
  assert (T0 : (0 < length (f_thick c))%nat) by (destruct (f_thick c); [congruence|cbn; lia]).
  rewrite (get_some _ 0 0) in H by exact T0. cbn [bind] in H. rewrite HR in H. cbn [bind] in H. rewrite HL in H. cbn [bind] in H.
  assert (B0 : f_pml c + f_free c = layer_begin c 0) by (unfold layer_begin; cbn; lra).
  rewrite B0, <- layer_begin_S in H by exact T0.
  set (g0 := add_source_ src (named (source_name c) (frame_grid c))) in *.
  assert (LL : (0 + length layers <= length (f_thick c))%nat)
    by (eapply (proj1 (add_layers_ok c (SPEED_OF_LIGHT / wl) P layers 0 g0 eq_refl eq_refl eq_refl T0 HE)); eauto).
  assert (V : forall p a, g_ie g0 p a = 1) by (intros; cbn; field).
  destruct (add_layers_spec c _ P layers 0 g0 g eq_refl eq_refl eq_refl LL (fun p a _ _ => V p a) H) as [F _]. exact F.
Qed.

Lemma start_dark c wl src g s0 : proper c -> 1 <= f_scaling c * f_pml c -> the_source c wl src ->
  same_frame (add_source_ src (named (source_name c) (frame_grid c))) g ->
  Rtrunc (f_src_x c * f_scaling c) = Z.of_nat s0 -> (pml_columns c <= S s0)%nat ->
  clear_between g (S s0) (columns c - pml_columns c - 1) /\ dark g (S s0) (columns c - pml_columns c) /\ g_N g AX = columns c /\ g_N g AY = 3%nat /\ g_N g AZ = 1%nat.
Proof.
  intros P H1 HS (A1 & A2 & A3 & A4 & A5 & A6 & A7 & A8 & A9 & A10 & A11) Es Ps.
  cbn [add_source_ named frame_grid g_N g_E g_H g_sources g_boundaries app] in *.
  pose proof (positions c P) as (Q1 & Q2 & Q3 & Q4 & Q5 & Q6 & _). pose proof (Q6 H1) as Q7.
  assert (NX : g_N g AX = columns c) by (rewrite A1; reflexivity).
  split; [|split; [|repeat split; rewrite A1; reflexivity]].
  - split; [rewrite A10|rewrite A9].
    + constructor; [split; [reflexivity|exact Ps]|]. constructor; [split; [reflexivity|]|].
      * change (columns c - pml_columns c - 1 < g_N g AX - pml_columns c)%nat. lia.
      * repeat constructor.
    + constructor; [|constructor]. exists s0. split; [apply (in_plane c wl src _ s0 HS NX Es)|lia].
  - split; [|split].
    + intros p a _. rewrite A5. reflexivity.
    + intros p a _. rewrite A6. reflexivity.
    + rewrite A10. constructor; [intros q x a; split; reflexivity|]. constructor; [intros q x a; split; reflexivity|]. repeat constructor.
Qed.

Lemma regular_dec a lo hi p : {regular_cell a lo hi p} + {~ regular_cell a lo hi p}.
Proof.
  destruct a; unfold regular_cell.
  - destruct (lt_dec (S (coord AX p)) hi); [left; auto|]. destruct (le_dec hi (S lo)); [left; auto|right; intros [?|?]; auto].
  - apply lt_dec.
  - left. exact I.
Qed.

Lemma same_before c s1 s2 wl row1 row2 l1 l2 g1 g2 j : proper c -> 1 <= f_scaling c * f_pml c -> known_kinds c -> 0 < wl ->
  f_thick c <> [] -> get s1 0 = Ok row1 -> get row1 0 = Ok l1 -> l1 <> [] -> get s2 0 = Ok row2 -> get row2 0 = Ok l2 -> l2 <> [] ->
  (j <= length l1)%nat -> (j <= length l2)%nat -> firstn j l1 = firstn j l2 ->
  init_fdtd c (Some s1) wl = Ok g1 -> init_fdtd c (Some s2) wl = Ok g2 ->
  g_courant g1 = g_courant g2 -> g_spacing g1 = g_spacing g2 -> g_N g1 = g_N g2 -> g_im g1 = g_im g2 ->
  forall p a, in_grid (g_N g1) p -> (coord AX p < edge c j)%nat -> g_abs g1 p a = g_abs g2 p a /\ g_ie g1 p a = g_ie g2 p a /\ g_im g1 p a = g_im g2 p a.
Proof.
  intros P H1 HK Hw HT R1 L1 E1 R2 L2 E2 J1 J2 EF I1 I2 Co Sp En Im p a G L.
  destruct (material_layout c s1 wl row1 l1 P H1 HK Hw HT R1 L1 E1) as [_ M1]. destruct (M1 g1 I1) as (_ & _ & K1).
  destruct (material_layout c s2 wl row2 l2 P H1 HK Hw HT R2 L2 E2) as [_ M2]. destruct (M2 g2 I2) as (_ & _ & K2).
  destruct (K1 p a G) as [V1 W1]. destruct (K2 p a ltac:(rewrite <- En; exact G)) as [V2 W2]. rewrite <- Im.
  destruct (Nat.lt_ge_cases (coord AX p) (edge c 0)) as [B|B].
  - destruct (V1 (or_introl B)) as [-> ->]. destruct (V2 (or_introl B)) as [-> ->]. auto.
  - destruct (layer_of c (coord AX p) j ltac:(lia)) as (i & Hi & Li).
    destruct (W1 i ltac:(lia) Li) as (X1 & X2 & X3). destruct (W2 i ltac:(lia) Li) as (Y1 & Y2 & Y3).
    assert (EN : nth i l1 (0, 0) = nth i l2 (0, 0)).
    { rewrite <- (firstn_skipn j l1), <- (firstn_skipn j l2), EF. rewrite !app_nth1; [reflexivity| |]; rewrite firstn_length; lia. }
    rewrite EN in X1, X3.
    assert (Ei : g_ie g1 p a = g_ie g2 p a).
    { destruct (regular_dec a (edge c i) (edge c (S i)) p) as [r|r]; [rewrite (X1 r), (Y1 r)|rewrite (X2 r), (Y2 r)]; reflexivity. }
    rewrite X3, Y3, Ei, Co, Sp. auto.
Qed.

Lemma reflection_unaware c (s1 s2 : eps_slice) wl row1 row2 l1 l2 j s0 t1 r1 t2 r2 : proper c -> 1 <= f_scaling c * f_pml c -> known_kinds c -> 0 < wl ->
  f_thick c <> [] -> get s1 0 = Ok row1 -> get row1 0 = Ok l1 -> l1 <> [] -> get s2 0 = Ok row2 -> get row2 0 = Ok l2 -> l2 <> [] ->
  (forall e, In e l1 \/ In e l2 -> 0 < fst e /\ 0 <= snd e) ->
  (j <= length l1)%nat -> (j <= length l2)%nat -> firstn j l1 = firstn j l2 ->
  Rtrunc (f_src_x c * f_scaling c) = Z.of_nat s0 -> (pml_columns c <= S s0)%nat -> (S s0 < edge c j)%nat ->
  simulate c (Some s1) wl = Ok (t1, r1) -> simulate c (Some s2) wl = Ok (t2, r2) ->
  forall k, (k < return_time c s0 j)%nat -> nth_error r1 k = nth_error r2 k.
Proof.
  intros P H1 HK Hw HT R1 L1 E1 R2 L2 E2 _ J1 J2 EF Es Ps Sj S1 S2 k Hk.
  destruct (simulate_signals c (Some s1) wl t1 r1 P H1 HK Hw ltac:(right; exists s1, row1, l1; auto) S1) as (g1 & I1 & _ & Lr1 & K1).
  destruct (simulate_signals c (Some s2) wl t2 r2 P H1 HK Hw ltac:(right; exists s2, row2, l2; auto) S2) as (g2 & I2 & _ & Lr2 & K2).
  destruct (Nat.lt_ge_cases k (Z.to_nat (f_niter c))) as [Lk|Lk].
  2: { rewrite (proj2 (nth_error_None r1 k)), (proj2 (nth_error_None r2 k)) by lia. reflexivity. }
  assert (Ru : forall g s t r, init_fdtd c (Some s) wl = Ok g -> simulate c (Some s) wl = Ok (t, r) -> exists gk, run_steps (S k) g = Ok gk).
  { intros g s t r I S0. unfold simulate in S0. apply bind_ok in S0 as (g' & I' & S0). rewrite I in I'. injection I' as <-.
    apply bind_ok in S0 as (g'' & R & _). unfold run_int in R. replace (Z.to_nat (f_niter c)) with (S k + (Z.to_nat (f_niter c) - S k))%nat in R by lia.
    rewrite run_steps_add in R. apply bind_ok in R as (gk & R & _). eauto. }
  destruct (Ru g1 s1 t1 r1 I1 S1) as (k1 & Q1). destruct (Ru g2 s2 t2 r2 I2 S2) as (k2 & Q2). clear Ru.
  rewrite (proj2 (K1 k k1 Lk Q1)), (proj2 (K2 k k2 Lk Q2)). f_equal. clear K1 K2.
  destruct (bounds_list c wl P H1 HK Hw) as (src & HS & Fr).
  pose proof (Fr s1 row1 l1 g1 HT R1 L1 E1 I1) as F1. pose proof (Fr s2 row2 l2 g2 HT R2 L2 E2 I2) as F2. clear Fr.
  destruct (start_dark c wl src g1 s0 P H1 HS F1 Es Ps) as (C1 & D1 & NX & NY & NZ). destruct (start_dark c wl src g2 s0 P H1 HS F2 Es Ps) as (C2 & D2 & _).
  destruct F1 as (a1 & a2 & a3 & a4 & a5 & a6 & a7 & a8 & a9 & a10 & a11). destruct F2 as (b1 & b2 & b3 & b4 & b5 & b6 & b7 & b8 & b9 & b10 & b11).
  pose proof (same_before c s1 s2 wl row1 row2 l1 l2 g1 g2 j P H1 HK Hw HT R1 L1 E1 R2 L2 E2 J1 J2 EF I1 I2 ltac:(congruence) ltac:(congruence) ltac:(congruence) ltac:(congruence)) as M.
  pose proof (positions c P) as (q1 & q2 & q3 & q4 & q5 & q6 & _). specialize (q6 H1). pose proof (edge_le_end c j P) as q7. pose proof (edge_le c 0 j P ltac:(lia)) as q8.
  assert (A : agree AX (edge c j) 1 (columns c) g1 g2).
  { split; [congruence|]. split; [congruence|]. split; [congruence|]. split; [congruence|].
    split; [split; [lia|split; [lia|]]; rewrite a9, b9; apply sm_same, sm_nil|].
    assert (Fa : forall p, far (g_N g1) AX (edge c j) 1 (columns c) p -> in_grid (g_N g1) p /\ (coord AX p < edge c j)%nat)
      by (intros p [G F]; split; [exact G|]; pose proof (G AX); lia).
    split; [intros p x _; rewrite a5, b5; reflexivity|]. split; [intros p x _; rewrite a6, b6; reflexivity|].
    split; [intros p x F; apply M; apply Fa, F|]. split; [intros p x F; apply M; apply Fa, F|]. split; [intros p x F; apply M; apply Fa, F|].
    rewrite a10, b10. split; [|repeat constructor].
    constructor; [repeat split|]. constructor; [repeat split|]. constructor; [reflexivity|constructor]. }
  set (n := Nat.min (S k) (Nat.min (edge c j - (s0 + 2)) (columns c - pml_columns c - edge c j))).
  assert (Hn : exists m, S k = (n + m)%nat /\ (m <= edge c j - 1 - reflection_column c)%nat).
  { exists (S k - n)%nat. unfold n, return_time in *. lia. }
  destruct Hn as (m & Em & Hm). rewrite Em in Q1, Q2.
  assert (EQ : forall y, (y < 3)%nat -> g_E k1 (reflection_column c, y, 0)%nat AZ = g_E k2 (reflection_column c, y, 0)%nat AZ).
  { intros y Hy. eapply (no_news (edge c j) (S s0) (columns c - pml_columns c - 1) n m g1 g2 k1 k2 (S s0) (columns c - pml_columns c) (columns c)); try eassumption.
    all: try (unfold n; lia).
    - intros [| |]; cbn [coord]; lia.
    - change (reflection_column c + m < edge c j)%nat. lia. }
  unfold column_mean. rewrite !EQ by lia. reflexivity.
Qed.
