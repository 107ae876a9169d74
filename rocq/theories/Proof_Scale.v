(** Enlarging a simulation and its wavelength leaves the signals as they are. *)
From Coq Require Import Reals ZArith String List Bool Lra Lia Psatz.
From Verif Require Proof_Plane.
From Verif Require Import Base BaseLemmas PyVal Spec_Config Model_Units Model_EpsGrid Model_Coeffs Spec_Coeffs Proof_Coeffs Model_FDTD Model_Register
  Spec_FDTD Spec_Register Model_Layout Spec_Layout Proof_FDTD Proof_Propagate Proof_Layout Proof_Spectrum Proof_Vacuum Proof_Window Proof_Readout Proof_Harmonic Proof_Harmonic5 Proof_Causal Proof_Causal2
  Spec_Harmonic Proof_Harmonic7 Spec_Resolution Proof_Resolution Spec_Twin Proof_Twin Spec_Cut Proof_Cut Spec_Scale.
Import ListNotations.
Open Scope R_scope.

Section Scale.
  Variables (k : R) (c : fdtd_cfg).
  Hypothesis K0 : 0 < k.
  Let c' := enlarged k c.
  Lemma sum_scaled l : Rsum (map (Rmult k) l) = k * Rsum l.
  Proof using. induction l as [|x l IH]; cbn; [ring|]. unfold Rsum in IH. rewrite IH. ring. Qed.
  Lemma column_scaled x y : y = k * x -> column c' y = column c x.
  Proof using K0. intros ->. unfold column. cbn [c' enlarged f_scaling]. do 2 f_equal. field. lra. Qed.
  Lemma edge_scaled i : edge c' i = edge c i.
  Proof using K0. apply column_scaled. unfold layer_begin. cbn [c' enlarged f_pml f_free f_thick]. rewrite firstn_map, sum_scaled. ring. Qed.
  Lemma columns_scaled : columns c' = columns c.
  Proof using K0. apply column_scaled. cbn [c' enlarged f_pml f_free f_thick]. rewrite sum_scaled. ring. Qed.
  Lemma pml_scaled : pml_columns c' = pml_columns c.
  Proof using K0. apply column_scaled. reflexivity. Qed.
  Lemma transmission_scaled : transmission_column c' = transmission_column c.
  Proof using K0. unfold transmission_column, material_end. cbn [c' enlarged f_thick f_det]. rewrite map_length. fold c'. rewrite edge_scaled. reflexivity. Qed.
  Lemma reflection_scaled : reflection_column c' = reflection_column c.
  Proof using K0. unfold reflection_column. rewrite edge_scaled. reflexivity. Qed.
  Lemma proper_scaled : proper c -> proper c'.
  Proof using K0.
    intros [p1 p2 p3 p4 p5 p6]. constructor; cbn [c' enlarged f_scaling f_pml f_free f_thick f_det].
    - apply Rdiv_lt_0_compat; assumption.
    - apply Rmult_lt_0_compat; assumption.
    - apply Rmult_lt_0_compat; assumption.
    - apply Forall_map. eapply Forall_impl; [|exact p4]. intros x X. apply Rmult_lt_0_compat; assumption.
    - exact p5.
    - replace (f_scaling c / k * (k * f_free c)) with (f_scaling c * f_free c) by (field; lra). exact p6.
  Qed.
  Lemma thick_pml_scaled : 1 <= f_scaling c * f_pml c -> 1 <= f_scaling c' * f_pml c'.
  Proof using K0. cbn [c' enlarged f_scaling f_pml]. replace (f_scaling c / k * (k * f_pml c)) with (f_scaling c * f_pml c) by (field; lra). auto. Qed.
  Lemma src_x_scaled : Rtrunc (f_src_x c' * f_scaling c') = Rtrunc (f_src_x c * f_scaling c).
  Proof using K0. cbn [c' enlarged f_scaling f_src_x]. f_equal. field. lra. Qed.
  Lemma src_y_scaled : Rtrunc (f_src_y c' * f_scaling c') = Rtrunc (f_src_y c * f_scaling c).
  Proof using K0. cbn [c' enlarged f_scaling f_src_y]. f_equal. field. lra. Qed.
  Lemma usable_scaled : usable_source c -> usable_source c'.
  Proof using K0. intros [U V]. split; [rewrite columns_scaled, src_x_scaled; exact U|]. rewrite src_y_scaled. exact V. Qed.
  Lemma shows_scaled layers x e : shows c layers x e -> shows c' layers x e.
  Proof using K0.
    intros [(j & J & L & E)|[O E]]; [left; exists j; rewrite !edge_scaled; auto|right; rewrite !edge_scaled; auto].
  Qed.

  Lemma source_scaled wl : proper c -> known_kinds c -> f_pulse c <> "hanning"%string -> 0 < wl ->
    exists src, add_source (Rtrunc (f_src_x c * f_scaling c)) (Rtrunc (f_src_y c * f_scaling c)) (wl / SPEED_OF_LIGHT) (f_pulse c) (f_source c) (frame_grid c)
                = Ok (add_source_ src (named (source_name c) (frame_grid c)))
      /\ add_source (Rtrunc (f_src_x c' * f_scaling c')) (Rtrunc (f_src_y c' * f_scaling c')) (k * wl / SPEED_OF_LIGHT) (f_pulse c') (f_source c') (frame_grid c')
                = Ok (add_source_ src (named (source_name c') (frame_grid c'))).
  Proof using K0.
    intros P [HP HS] NH Hw. rewrite src_x_scaled, src_y_scaled. change (f_pulse c') with (f_pulse c). change (f_source c') with (f_source c). unfold add_source.
    pose proof SPEED_pos as SP. pose proof UNIT_pos as UP. pose proof (pr_scaling _ P) as S0. assert (S2 : 0 < sqrt (INR 2)) by (apply sqrt_lt_R0; cbn; lra).
    assert (exists st, signal_of (f_pulse c) = Some st /\ st <> SHanning) as (st & -> & C).
    { destruct HP as [-> | [E | ->]]; [|congruence|]; eexists; (split; [reflexivity|discriminate]). }
    set (a := mkSource (PFloat (wl / SPEED_OF_LIGHT)) 1 0 5 (Some (/ 10 ^ 15)) st). set (a' := mkSource (PFloat (k * wl / SPEED_OF_LIGHT)) 1 0 5 (Some (/ 10 ^ 15)) st).
    assert (SG : source_signal (frame_grid c') a' = source_signal (frame_grid c) a).
    { unfold source_signal. cbn [a a' s_signal]. destruct st; [| congruence |].
      - f_equal. cbn [handle_time a a' s_period frame_grid g_time_step c' enlarged f_scaling]. do 2 f_equal. field. repeat split; lra.
      - f_equal. unfold s_gpw, s_frequency. cbn [a a' s_period pynum_R frame_grid g_spacing c' enlarged f_scaling]. field. repeat split; lra. }
    unfold source_name. change (f_source c') with (f_source c). destruct HS as [E|E]; rewrite E; cbn [String.eqb Ascii.eqb Bool.eqb].
    - eexists. split; [apply assign_point; reflexivity|]. rewrite assign_point by reflexivity. rewrite SG. reflexivity.
    - eexists. split; [apply assign_line; reflexivity|]. rewrite assign_line by reflexivity. rewrite SG. reflexivity.
  Qed.
End Scale.

Lemma frame_after c src (slice : eps_slice) row layers g wl : proper c -> 1 <= f_scaling c * f_pml c -> f_thick c <> [] -> get slice 0 = Ok row -> get row 0 = Ok layers -> layers <> [] ->
  add_source (Rtrunc (f_src_x c * f_scaling c)) (Rtrunc (f_src_y c * f_scaling c)) (wl / SPEED_OF_LIGHT) (f_pulse c) (f_source c) (frame_grid c)
    = Ok (add_source_ src (named (source_name c) (frame_grid c))) ->
  init_fdtd c (Some slice) wl = Ok g -> same_frame (add_source_ src (named (source_name c) (frame_grid c))) g.
Proof.
  intros P H1 HT HR HL HE E H. rewrite (init_split c (Some slice) wl P H1), E in H. cbn [bind] in H. cbv zeta in H.
  assert (T0 : (0 < length (f_thick c))%nat) by (destruct (f_thick c); [congruence|cbn; lia]).
  rewrite (get_some _ 0 0) in H by exact T0. cbn [bind] in H. rewrite HR in H. cbn [bind] in H. rewrite HL in H. cbn [bind] in H.
  assert (B0 : f_pml c + f_free c = layer_begin c 0) by (unfold layer_begin; cbn; lra).
  rewrite B0, <- layer_begin_S in H by exact T0.
  set (g0 := add_source_ src (named (source_name c) (frame_grid c))) in *.
  assert (LL : (0 + length layers <= length (f_thick c))%nat)
    by (eapply (proj1 (add_layers_ok c (SPEED_OF_LIGHT / wl) P layers 0 g0 eq_refl eq_refl eq_refl T0 HE)); eauto).
  assert (V : forall p a, g_ie g0 p a = 1) by (intros; cbn; field).
  destruct (add_layers_spec c _ P layers 0 g0 g eq_refl eq_refl eq_refl LL (fun p a _ _ => V p a) H) as [F _]. exact F.
Qed.

Lemma start_scaled k c wl (s : eps_slice) row l g g' : 0 < k -> proper c -> 1 <= f_scaling c * f_pml c -> known_kinds c -> f_pulse c <> "hanning"%string -> 0 < wl -> f_thick c <> [] ->
  get s 0 = Ok row -> get row 0 = Ok l -> l <> [] ->
  init_fdtd c (Some s) wl = Ok g -> init_fdtd (enlarged k c) (Some s) (k * wl) = Ok g' -> same_polarization AZ true g g'.
Proof.
  intros K0 P H1 HK NH Hw HT HR HL HE I I'. destruct (source_scaled k c K0 wl P HK NH Hw) as (src & E & E').
  pose proof (proper_scaled k c K0 P) as P'. pose proof (thick_pml_scaled k c K0 H1) as H1'. assert (HT' : f_thick (enlarged k c) <> []) by (cbn; destruct (f_thick c); [congruence|discriminate]).
  assert (Hw' : 0 < k * wl) by (apply Rmult_lt_0_compat; assumption). assert (HK' : known_kinds (enlarged k c)) by exact HK.
  pose proof (frame_after c src s row l g wl P H1 HT HR HL HE E I) as F. pose proof (frame_after (enlarged k c) src s row l g' (k * wl) P' H1' HT' HR HL HE E' I') as F'.
  destruct F as (a1 & a2 & a3 & a4 & a5 & a6 & a7 & a8 & a9 & a10 & a11). destruct F' as (b1 & b2 & b3 & b4 & b5 & b6 & b7 & b8 & b9 & b10 & b11).
  cbn [add_source_ named frame_grid g_N g_E g_H g_sources g_boundaries g_courant g_spacing g_time_step g_im g_steps app] in *.
  rewrite (columns_scaled k c K0) in b1. rewrite (pml_scaled k c K0) in b10.
  assert (EN : g_N g = g_N g') by congruence. assert (EC : g_courant g = g_courant g') by congruence.
  assert (M : forall p, in_grid (g_N g) p -> g_ie g p AZ = g_ie g' p AZ /\ g_abs g p AZ = g_abs g' p AZ).
  { intros p G. destruct (shows_some c l (coord AX p) P) as (e & S).
    destruct (shows_z c s wl row l g p e P H1 HK Hw HT HR HL HE I G S) as [-> ->].
    destruct (shows_z (enlarged k c) s (k * wl) row l g' p e P' H1' HK' Hw' HT' HR HL HE I' ltac:(rewrite <- EN; exact G) (shows_scaled k c K0 l _ e S)) as [-> ->].
    split; [reflexivity|]. rewrite <- EC. unfold conductivity.
    replace (g_spacing g') with (k * g_spacing g).
    - unfold Rdiv. rewrite Rinv_mult_distr by lra. generalize (/ fst e) as q. intros q. field. repeat split; lra.
    - first [rewrite a2, b2 | rewrite a3, b3 | rewrite a4, b4]. cbn [enlarged f_scaling]. pose proof (pr_scaling _ P). field. split; lra. }
  unfold same_polarization. split; [exact EN|]. split; [rewrite a1; reflexivity|]. do 3 (split; [congruence|]).
  split; [intros p x _ _; congruence|]. split; [intros p x _ _; congruence|]. split; [intros p x G ->; apply M, G|]. split; [intros p x G ->; apply M, G|].
  split; [intros p x _ _; congruence|]. rewrite a10, b10.
  constructor; [repeat split|]. constructor; [repeat split|]. constructor; [reflexivity|constructor].
Qed.

Lemma stack_scaled k c wl (s : eps_slice) row l t r t' r' : 0 < k -> proper c -> 1 <= f_scaling c * f_pml c -> known_kinds c -> f_pulse c <> "hanning"%string -> 0 < wl -> f_thick c <> [] ->
  get s 0 = Ok row -> get row 0 = Ok l -> l <> [] ->
  simulate c (Some s) wl = Ok (t, r) -> simulate (enlarged k c) (Some s) (k * wl) = Ok (t', r') -> t = t' /\ r = r'.
Proof.
  intros K0 P H1 HK NH Hw HT HR HL HE S1 S2.
  pose proof (proper_scaled k c K0 P) as P'. pose proof (thick_pml_scaled k c K0 H1) as H1'. assert (Hw' : 0 < k * wl) by (apply Rmult_lt_0_compat; assumption).
  destruct (simulate_signals c (Some s) wl t r P H1 HK Hw ltac:(right; exists s, row, l; auto) S1) as (g1 & I1 & Lt1 & Lr1 & K1).
  destruct (simulate_signals (enlarged k c) (Some s) (k * wl) t' r' P' H1' HK Hw' ltac:(right; exists s, row, l; auto) S2) as (g2 & I2 & Lt2 & Lr2 & K2).
  pose proof (start_scaled k c wl s row l g1 g2 K0 P H1 HK NH Hw HT HR HL HE I1 I2) as T.
  change (f_niter (enlarged k c)) with (f_niter c) in *. set (n := Z.to_nat (f_niter c)) in *.
  rewrite (transmission_scaled k c K0), (reflection_scaled k c K0) in K2.
  assert (Ru : forall cc w g t r, f_niter cc = f_niter c -> init_fdtd cc (Some s) w = Ok g -> simulate cc (Some s) w = Ok (t, r) -> forall i, (i < n)%nat -> exists gi, run_steps (S i) g = Ok gi).
  { clear - n. intros cc w g t r En I S0 i Li. unfold simulate in S0. apply bind_ok in S0 as (g' & I' & S0). rewrite I in I'. injection I' as <-.
    apply bind_ok in S0 as (g'' & R & _). unfold run_int in R. rewrite En in R. fold n in R. replace n with (S i + (n - S i))%nat in R by lia.
    rewrite run_steps_add in R. apply bind_ok in R as (gi & R & _). eauto. }
  pose proof (positions c P) as (q1 & q2 & q3 & q4 & q5 & q6 & _). specialize (q6 H1). pose proof (edge_le_end c 0 P) as q7.
  assert (B : (transmission_column c < columns c)%nat /\ (reflection_column c < columns c)%nat) by lia.
  assert (N1 : g_N g1 = shape_of (columns c) 3 1).
  { destruct (bounds_list c wl P H1 HK Hw) as (src & _ & Fr). destruct (Fr s row l g1 HT HR HL HE I1) as (a1 & _). exact a1. }
  assert (Kk : forall i, (i < n)%nat -> nth_error t i = nth_error t' i /\ nth_error r i = nth_error r' i).
  { intros i Li. destruct (Ru c wl g1 t r eq_refl I1 S1 i Li) as (k1 & Q1). destruct (Ru (enlarged k c) (k * wl) g2 t' r' eq_refl I2 S2 i Li) as (k2 & Q2).
    destruct (K1 i k1 Li Q1) as [-> ->]. destruct (K2 i k2 Li Q2) as [-> ->].
    pose proof (twin_run _ _ _ _ _ _ _ T Q1 Q2) as (TN & _ & _ & _ & _ & TE & _).
    assert (NK : g_N k1 = shape_of (columns c) 3 1) by (rewrite <- N1; exact (proj1 (Proof_Plane.run_frame _ _ _ Q1))).
    assert (C : forall x, (x < columns c)%nat -> column_mean k1 x = column_mean k2 x).
    { intros x Hx. unfold column_mean. rewrite !TE; try reflexivity; rewrite NK; intros [| |]; cbn [coord shape_of fst snd]; lia. }
    rewrite !C by apply B. auto. }
  split; apply nth_error_same; intros i; (destruct (Nat.lt_ge_cases i n) as [Li|Li]; [apply Kk, Li|]).
  - rewrite (proj2 (nth_error_None t i)), (proj2 (nth_error_None t' i)) by lia. reflexivity.
  - rewrite (proj2 (nth_error_None r i)), (proj2 (nth_error_None r' i)) by lia. reflexivity.
Qed.

Lemma simulate_scaled k c wl (obj : option eps_slice) : 0 < k -> proper c -> 1 <= f_scaling c * f_pml c -> known_kinds c -> f_pulse c <> "hanning"%string -> usable_source c -> f_thick c <> [] ->
  UNIT_MAGNITUDE <= wl * f_scaling c ->
  (obj = None \/ exists slice row layers, obj = Some slice /\ get slice 0 = Ok row /\ get row 0 = Ok layers /\ layers <> [] /\ (length layers <= length (f_thick c))%nat) ->
  exists t r, simulate c obj wl = Ok (t, r) /\ simulate (enlarged k c) obj (k * wl) = Ok (t, r).
Proof.
  intros K0 P H1 HK NH HU HT Hw HO.
  pose proof (proper_scaled k c K0 P) as P'. pose proof (thick_pml_scaled k c K0 H1) as H1'. pose proof (usable_scaled k c K0 HU) as U'.
  assert (HT' : f_thick (enlarged k c) <> []) by (cbn; destruct (f_thick c); [congruence|discriminate]). assert (HK' : known_kinds (enlarged k c)) by exact HK.
  assert (W : 0 < wl). { pose proof (pr_scaling _ P). assert (0 < UNIT_MAGNITUDE) by (unfold UNIT_MAGNITUDE; lra). apply Rmult_lt_reg_r with (f_scaling c); lra. }
  assert (W' : 0 < k * wl) by (apply Rmult_lt_0_compat; assumption).
  assert (Hw' : UNIT_MAGNITUDE <= k * wl * f_scaling (enlarged k c)) by (cbn [enlarged f_scaling]; replace (k * wl * (f_scaling c / k)) with (wl * f_scaling c) by (field; lra); exact Hw).
  assert (Main : forall s row l, get s 0 = Ok row -> get row 0 = Ok l -> l <> [] -> (length l <= length (f_thick c))%nat ->
     exists t r, simulate c (Some s) wl = Ok (t, r) /\ simulate (enlarged k c) (Some s) (k * wl) = Ok (t, r)).
  { intros s row l HR HL HE LL.
    destruct (simulate_ok c (Some s) wl P H1 HK HU Hw) as (t & r & S1 & _); [right; exists s, row, l; repeat split; assumption|].
    destruct (simulate_ok (enlarged k c) (Some s) (k * wl) P' H1' HK' U' Hw') as (t' & r' & S2 & _); [right; exists s, row, l; repeat split; try assumption; cbn; rewrite map_length; assumption|].
    destruct (stack_scaled k c wl s row l t r t' r' K0 P H1 HK NH W HT HR HL HE S1 S2) as [-> ->]. exists t', r'. auto. }
  destruct HO as [->|(s & row & l & -> & HR & HL & HE & LL)]; [|eapply Main; eassumption].
  assert (L1 : (1 <= length (f_thick c))%nat) by (destruct (f_thick c); [congruence|cbn; lia]).
  destruct (Main [[[(1, 0)]]] [[(1, 0)]] [(1, 0)] eq_refl eq_refl ltac:(discriminate) L1) as (t & r & S1 & S2). exists t, r.
  assert (V1 : simulate c (Some [[[(1, 0)]]]) wl = simulate c None wl).
  { apply (vacuum_simulation c wl [[[(1, 0)]]] [[(1, 0)]] [(1, 0)]); try assumption; try reflexivity. intros e [<-|[]]; reflexivity. }
  assert (V2 : simulate (enlarged k c) (Some [[[(1, 0)]]]) (k * wl) = simulate (enlarged k c) None (k * wl)).
  { apply (vacuum_simulation (enlarged k c) (k * wl) [[[(1, 0)]]] [[(1, 0)]] [(1, 0)]); try assumption; try reflexivity; [cbn; rewrite map_length; exact L1|intros e [<-|[]]; reflexivity]. }
  exact (conj (eq_trans (eq_sym V1) S1) (eq_trans (eq_sym V2) S2)).
Qed.

Lemma entry_scaled k c wl (s : eps_slice) row l w : 0 < k -> proper c -> 1 <= f_scaling c * f_pml c -> known_kinds c -> f_pulse c <> "hanning"%string -> usable_source c -> f_thick c <> [] ->
  UNIT_MAGNITUDE <= wl * f_scaling c -> get s 0 = Ok row -> get row 0 = Ok l -> l <> [] -> (length l <= length (f_thick c))%nat ->
  (exists e, In e (concat (concat s)) /\ 0 <= fst e) -> window_of c wl w -> window_of c (k * wl) w ->
  one_wavelength (enlarged k c) (k * wl) s = one_wavelength c wl s.
Proof.
  intros K0 P H1 HK NH HU HT Hw HR HL HE LL D V V'.
  pose proof (proper_scaled k c K0 P) as P'. pose proof (thick_pml_scaled k c K0 H1) as H1'. pose proof (usable_scaled k c K0 HU) as U'.
  assert (HT' : f_thick (enlarged k c) <> []) by (cbn; destruct (f_thick c); [congruence|discriminate]). assert (HK' : known_kinds (enlarged k c)) by exact HK.
  assert (W : 0 < wl). { pose proof (pr_scaling _ P). assert (0 < UNIT_MAGNITUDE) by (unfold UNIT_MAGNITUDE; lra). apply Rmult_lt_reg_r with (f_scaling c); lra. }
  assert (W' : 0 < k * wl) by (apply Rmult_lt_0_compat; assumption).
  assert (Hw' : UNIT_MAGNITUDE <= k * wl * f_scaling (enlarged k c)) by (cbn [enlarged f_scaling]; replace (k * wl * (f_scaling c / k)) with (wl * f_scaling c) by (field; lra); exact Hw).
  destruct (simulate_scaled k c wl None K0 P H1 HK NH HU HT Hw (or_introl eq_refl)) as (t0 & r0 & X1 & X2).
  destruct (simulate_scaled k c wl (Some s) K0 P H1 HK NH HU HT Hw) as (t1 & r1 & Y1 & Y2); [right; exists s, row, l; auto|].
  destruct (entry_value c wl s row l P H1 HK HU Hw HR HL HT HE LL D) as (tf & rf & tm & rm & F1 & M1 & _ & _ & _ & _ & ->).
  destruct (entry_value (enlarged k c) (k * wl) s row l P' H1' HK' U' Hw' HR HL HT' HE ltac:(cbn; rewrite map_length; exact LL) D) as (tf2 & rf2 & tm2 & rm2 & F2 & M2 & _ & _ & _ & _ & ->).
  change (f_min_gp (enlarged k c)) with (f_min_gp c). rewrite (same_window c wl (k * wl) w W W' V V'). congruence.
Qed.

(** The stack ten times as large, and a wavelength of 10 micrometres; enlarged by a hundredth, where the window is the same. *)
Lemma ten_case : exists t r, simulate stack_cfg (Some stack_slice) (1 / 1000000) = Ok (t, r) /\ simulate (enlarged 10 stack_cfg) (Some stack_slice) (10 * (1 / 1000000)) = Ok (t, r)
  /\ length t = 400%nat.
Proof.
  destruct stack_facts as (P & KN & US & _).
  destruct (simulate_scaled 10 stack_cfg (1 / 1000000) (Some stack_slice)) as (t & r & S1 & S2); try assumption; try lra; try discriminate.
  - cbn. lra.
  - unfold UNIT_MAGNITUDE. cbn. lra.
  - right. exists stack_slice, [[(4, 0); (2, 1 / 10)]], [(4, 0); (2, 1 / 10)]. repeat split; try discriminate. cbn. lia.
  - exists t, r. split; [exact S1|]. split; [exact S2|].
    destruct (simulate_signals stack_cfg (Some stack_slice) (1 / 1000000) t r P ltac:(cbn; lra) KN ltac:(lra)) as (_ & _ & L & _); [|exact S1|exact L].
    right. exists stack_slice, [[(4, 0); (2, 1 / 10)]], [(4, 0); (2, 1 / 10)]. auto.
Qed.
Lemma percent_case : one_wavelength (enlarged (101 / 100) stack_cfg) (101 / 100 * (1 / 1000000)) stack_slice = one_wavelength stack_cfg (1 / 1000000) stack_slice.
Proof.
  destruct stack_facts as (P & KN & US & _).
  apply (entry_scaled (101 / 100) stack_cfg (1 / 1000000) stack_slice [[(4, 0); (2, 1 / 10)]] [(4, 0); (2, 1 / 10)] 30); try assumption; try lra; try discriminate; try reflexivity.
  - cbn. lra.
  - unfold UNIT_MAGNITUDE. cbn. lra.
  - exists (4, 0). cbn. split; [auto|lra].
  - unfold window_of, UNIT_MAGNITUDE. cbn [f_min_gp stack_cfg]. rewrite (INR_IZR_INZ 10). cbn [Z.of_nat Pos.of_succ_nat Pos.succ]. lra.
  - unfold window_of, UNIT_MAGNITUDE. cbn [f_min_gp stack_cfg]. rewrite (INR_IZR_INZ 10). cbn [Z.of_nat Pos.of_succ_nat Pos.succ]. lra.
Qed.
(** The window does not grow with the lengths in columns: ten times the wavelength, ten times as many samples. *)
Lemma window_case : window_of stack_cfg (1 / 1000000) 30 /\ window_of (enlarged 10 stack_cfg) (10 * (1 / 1000000)) 300.
Proof.
  split; unfold window_of, UNIT_MAGNITUDE; cbn [enlarged f_min_gp stack_cfg]; rewrite (INR_IZR_INZ 10); cbn [Z.of_nat Pos.of_succ_nat Pos.succ]; lra.
Qed.
