(** Vacuum layers, and layouts that fail. *)
From Coq Require Import Reals ZArith String List Bool Lra Lia Psatz FunctionalExtensionality.
From Verif Require Import Base BaseLemmas PyVal Spec_Config Model_Config Proof_Config Model_Units Proof_Units Model_EpsGrid Proof_EpsGrid Model_Coeffs Spec_Coeffs Proof_Coeffs Model_FDTD Model_Register
  Spec_FDTD Spec_Register Model_Layout Spec_Layout Proof_Register Proof_Register2 Proof_Material
  Proof_FDTD Proof_Steps Proof_Reset Proof_Layout Proof_Spectrum Proof_Spectrum2 Proof_Spectrum3.
Import ListNotations.
Open Scope R_scope.

(** ** Values of a spectrum *)

Lemma Rmaximum_ge l x : In x l -> x <= Rmaximum l.
Proof.
  intros H. destruct l as [|a l]; [destruct H|].
  apply (proj2 (Rmaximum_spec (a :: l) ltac:(discriminate))). exact H.
Qed.

(** When both simulations run, an entry of the spectrum is computed from their
    four signals, each with one sample per time step. *)
Lemma entry_value f wl (slice : eps_slice) row layers : proper f -> 1 <= f_scaling f * f_pml f -> known_kinds f -> usable_source f ->
  UNIT_MAGNITUDE <= wl * f_scaling f ->
  get slice 0 = Ok row -> get row 0 = Ok layers -> f_thick f <> [] -> layers <> [] -> (length layers <= length (f_thick f))%nat ->
  (exists e, In e (concat (concat slice)) /\ 0 <= fst e) ->
  exists tf rf tm rm, simulate f None wl = Ok (tf, rf) /\ simulate f (Some slice) wl = Ok (tm, rm)
    /\ length tf = Z.to_nat (f_niter f) /\ length rf = Z.to_nat (f_niter f)
    /\ length tm = Z.to_nat (f_niter f) /\ length rm = Z.to_nat (f_niter f)
    /\ one_wavelength f wl slice = calculate_coefficients (window_size (f_min_gp f) wl) tf tm rf rm.
Proof.
  intros P H1 HK HU Hw HR HL HT HE LL (e & He & E0).
  destruct (simulate_ok f None wl P H1 HK HU Hw (or_introl eq_refl)) as (tf & rf & S1 & L1 & L2).
  destruct (simulate_ok f (Some slice) wl P H1 HK HU Hw) as (tm & rm & S2 & L3 & L4).
  { right. exists slice, row, layers. auto 8. }
  exists tf, rf, tm, rm. repeat (split; [assumption|]).
  unfold one_wavelength. change (simulate f (@None eps_slice) wl = Ok (tf, rf)) in S1. rewrite S1. cbn [bind]. rewrite S2. cbn [bind fst snd].
  assert (exists z, recommended_timesteps f wl slice = Ok z) as [z ->]; [|reflexivity].
  unfold recommended_timesteps. destruct (f_thick f) as [|t0 T0] eqn:ET; [congruence|].
  assert (In (fst e) (map fst (concat (concat slice)))) as HI by (apply in_map; exact He).
  destruct (map fst (concat (concat slice))) as [|r0 rs] eqn:EM; [destruct HI|].
  pose proof (Rmaximum_ge _ _ HI) as HM. unfold Rltb. destruct (Rlt_dec (Rmaximum (r0 :: rs)) 0); [lra|]. eauto.
Qed.

(** All real parts negative: the recommended number of time steps is the
    integer part of NaN. *)
Lemma negative_permittivity f wl (slice : eps_slice) : f_thick f <> [] -> concat (concat slice) <> [] ->
  (forall e, In e (concat (concat slice)) -> fst e < 0) -> one_wavelength f wl slice = Err ValueError.
Proof.
  intros HT HS HN. unfold one_wavelength, recommended_timesteps. destruct (f_thick f) as [|t0 T0]; [congruence|].
  destruct (map fst (concat (concat slice))) as [|r0 rs] eqn:EM.
  { apply map_eq_nil in EM. congruence. }
  destruct (Rmaximum_spec (r0 :: rs) ltac:(discriminate)) as [HI _]. rewrite <- EM in HI at 2.
  apply in_map_iff in HI as (e & EE & HI). specialize (HN e HI).
  unfold Rltb. destruct (Rlt_dec (Rmaximum (r0 :: rs)) 0); [reflexivity|]. lra.
Qed.

Lemma empty_slice f wl (slice : eps_slice) : f_thick f <> [] -> concat (concat slice) = [] -> one_wavelength f wl slice = Err RuntimeError.
Proof.
  intros HT HS. unfold one_wavelength, recommended_timesteps. destruct (f_thick f) as [|t0 T0]; [congruence|]. rewrite HS. reflexivity.
Qed.

(** ** Vacuum *)

Definition vacuum_grid (g : grid) : Prop := (forall p a, g_ie g p a = 1) /\ (forall p a, g_abs g p a = 0).

Lemma vacuum_object a b freq g g' : vacuum_grid g -> add_object a b (1, 0) freq g = Ok g' -> same_physics g g' /\ vacuum_grid g'.
Proof.
  intros [V1 V2] H. unfold add_object, assign in H.
  destruct (setitem _ _ g) as [h [|]] eqn:E; [discriminate|]. inversion H; subst h; clear H.
  apply register_object_inv in E as (x & y & z & lo & hi & _ & _ & _ & EI & (rlo & rhi & _ & _ & EA) & A). cbn [fst snd] in *.
  assert (OI : forall base p c, object_written g 1 lo hi base p c = 1).
  { intros base p c. unfold object_written, object_ie. destruct (_ && _); [apply V1|]. field. }
  assert (X1 : forall p c, g_ie g' p c = 1). { intros p c. rewrite EI. destruct (in_box _ _ p); [apply OI|apply V1]. }
  assert (X2 : forall p c, g_abs g' p c = 0). { intros p c. rewrite EA. destruct (in_box _ _ p); [ring|apply V2]. }
  assert (g_ie g' = g_ie g) as Y1 by (extensionality p; extensionality c; rewrite X1, V1; reflexivity).
  assert (g_abs g' = g_abs g) as Y2 by (extensionality p; extensionality c; rewrite X2, V2; reflexivity).
  split; [|split; assumption]. unfold same_physics. intuition congruence.
Qed.
Lemma same_physics_trans a b c : same_physics a b -> same_physics b c -> same_physics a c.
Proof. unfold same_physics. intuition congruence. Qed.
Lemma vacuum_layers s T freq : forall layers i x0 x1 g g', vacuum_grid g -> (forall e, In e layers -> e = (1, 0)) ->
  add_layers s T freq i x0 x1 layers g = Ok g' -> same_physics g g'.
Proof.
  induction layers as [|e r IH]; intros i x0 x1 g g' V HV H; cbn [add_layers] in H.
  - inversion H. apply same_refl.
  - rewrite (HV e (or_introl eq_refl)) in H. apply bind_ok in H as (g1 & H1 & H).
    destruct (vacuum_object _ _ _ _ _ V H1) as [S1 V1].
    destruct r as [|e' r]; [inversion H; subst; exact S1|].
    apply bind_ok in H as (ti & _ & H). apply bind_ok in H as (tn & _ & H).
    eapply same_physics_trans; [exact S1|]. eapply IH; [exact V1| |exact H]. intros x Hx. apply HV. right. exact Hx.
Qed.

(** Vacuum layers: the material simulation is the free-space simulation. *)
Lemma vacuum_simulation f wl (slice : eps_slice) row layers : proper f -> 1 <= f_scaling f * f_pml f -> known_kinds f -> 0 < wl ->
  get slice 0 = Ok row -> get row 0 = Ok layers -> f_thick f <> [] -> (length layers <= length (f_thick f))%nat ->
  (forall e, In e layers -> e = (1, 0)) ->
  simulate f (Some slice) wl = simulate f None wl.
Proof.
  intros P H1 HK W HR HL HT LL HV. unfold simulate. rewrite !init_split by assumption.
  destruct (source_ok f wl P HK W) as (src & HS & E). rewrite E. cbn [bind].
  set (g0 := add_source_ src (named (source_name f) (frame_grid f))).
  assert (HT0 : (0 < length (f_thick f))%nat) by (destruct (f_thick f); [congruence|cbn; lia]).
  cbv zeta. rewrite (get_some (f_thick f) 0 0 HT0). cbn [bind]. rewrite HR. cbn [bind]. rewrite HL. cbn [bind].
  assert (B0 : f_pml f + f_free f = layer_begin f 0) by (unfold layer_begin; cbn; lra).
  rewrite B0, <- layer_begin_S by exact HT0.
  destruct layers as [|e r].
  { reflexivity. }
  destruct (proj2 (add_layers_ok f (SPEED_OF_LIGHT / wl) P (e :: r) 0 g0 eq_refl eq_refl eq_refl HT0 ltac:(discriminate)) LL) as [g' HG].
  rewrite HG. cbn [bind].
  assert (S : same_physics g0 g').
  { eapply vacuum_layers; [|exact HV|exact HG]. split; intros; cbn; [field|reflexivity]. }
  unfold run_int. pose proof (same_physics_run _ _ (Z.to_nat (f_niter f)) S) as SR.
  destruct (run_steps (Z.to_nat (f_niter f)) g0) as [a|], (run_steps (Z.to_nat (f_niter f)) g') as [b|]; try contradiction; cbn [bind].
  - unfold get_detector_values. destruct SR as (_ & _ & _ & _ & _ & _ & _ & _ & _ & _ & _ & _ & ->). reflexivity.
  - congruence.
Qed.

Lemma map2_minus_self s x : In x (map2 Rminus s s) -> x = 0.
Proof.
  unfold map2. intros H. apply in_map_iff in H as ([a b] & <- & H). cbn.
  assert (a = b); [|lra]. clear -H. induction s as [|y s IH]; [destruct H|]. destruct H as [H|H]; [congruence|auto].
Qed.

(** No reflection is ever reported for equal reflection signals. *)
Lemma no_reflection w tf tm r t rr : calculate_coefficients w tf tm r r = Ok (t, rr) -> rr = Fin 0 \/ rr = NaN.
Proof.
  unfold calculate_coefficients. rewrite Nat.eqb_refl. cbn [negb]. intros H.
  apply bind_ok in H as (_ & _ & H). apply bind_ok in H as (_ & _ & H).
  apply bind_ok in H as (tf' & _ & H). apply bind_ok in H as (tm' & _ & H). apply bind_ok in H as (r' & _ & H).
  apply bind_ok in H as (z & HZ & H). apply bind_ok in H as ([pr pt] & HP & H). cbn [fst snd] in H.
  unfold peak_based in HP. apply bind_ok in HP as (a & _ & HP). apply bind_ok in HP as (b & _ & HP).
  apply bind_ok in HP as (c & HC & HP). apply bind_ok in HP as (d & HD & HP). injection HP as <- <-.
  assert (Z0 : forall x, In x z -> x = 0).
  { destruct w as [|w]; [rewrite eliminate_window0 in HZ; discriminate|].
    destruct (eliminate_total (S w) false _ _ ltac:(lia) (strip_spec (map2 Rminus r r))) as [[_ X]|(_ & o & X & _ & SX & _)];
      rewrite HZ in X; [discriminate|]. inversion X; subst o. intros x Hx. apply (map2_minus_self r).
    destruct SX as [pp ->]. apply in_or_app. right. exact Hx. }
  assert (c = 0) as ->.
  { destruct z as [|z0 zs]; [cbn in HC; discriminate|]. rewrite power_zero in HC by (discriminate || exact Z0). congruence. }
  assert (Q : tdiv (Fin 0) (Fin d) = Fin 0 \/ tdiv (Fin 0) (Fin d) = NaN).
  { cbn. destruct (Req_EM_T d 0); [destruct (Req_EM_T 0 0); [auto|contradiction]|]. left. f_equal. unfold Rdiv. ring. }
  change (Ok (check_and_normalize (tdiv (Fin a) (Fin b)) (tdiv (Fin 0) (Fin d))) = Ok (t, rr)) in H.
  destruct Q as [Q|Q]; rewrite Q in H.
  - left. destruct (tdiv (Fin a) (Fin b)) as [x| | |].
    2-4: cbn in H; injection H as _ <-; reflexivity.
    destruct (normalize_cases x 0) as [N1 N2].
    destruct (Rle_dec (x + 0) 1) as [K|K]; [rewrite N1 in H by auto; injection H as _ <-; reflexivity|].
    destruct (Rle_dec (105 / 100) (x + 0)) as [K'|K']; [rewrite N1 in H by auto; injection H as _ <-; reflexivity|].
    rewrite N2 in H by lra. injection H as _ <-. f_equal. unfold Rdiv. ring.
  - right. rewrite normalize_nan in H by auto. congruence.
Qed.

Lemma vacuum_no_reflection f wl (slice : eps_slice) row layers t r : proper f -> 1 <= f_scaling f * f_pml f -> known_kinds f -> 0 < wl ->
  get slice 0 = Ok row -> get row 0 = Ok layers -> f_thick f <> [] -> (length layers <= length (f_thick f))%nat ->
  (forall e, In e layers -> e = (1, 0)) ->
  one_wavelength f wl slice = Ok (t, r) -> r = Fin 0 \/ r = NaN.
Proof.
  intros P H1 HK W HR HL HT LL HV H. unfold one_wavelength in H.
  rewrite (vacuum_simulation f wl slice row layers P H1 HK W HR HL HT LL HV) in H.
  apply bind_ok in H as (_ & _ & H). apply bind_ok in H as (fr & E1 & H). apply bind_ok in H as (mt & E2 & H).
  rewrite E1 in E2. inversion E2; subst mt. eapply no_reflection, H.
Qed.

(** ** Layouts *)

Lemma Rfloor_eq x z : IZR z <= x < IZR z + 1 -> Rfloor x = z.
Proof. exact (Rfloor_unique x z). Qed.

(** The transmission detector can lie in the right absorbing layer. *)
Definition edge_cfg : fdtd_cfg :=
  mkFcfg 10 (3/2) 1 [1] 10 (3/2) 1 "continuous" "line" 200 10.
Lemma edge_cfg_proper : proper edge_cfg.
Proof. constructor; cbn; try lra; try lia. repeat constructor. lra. Qed.
Lemma column_of c x z : f_scaling c * x = IZR z -> column c x = Z.to_nat z.
Proof. intros H. unfold column. rewrite H. f_equal. apply Rfloor_eq. lra. Qed.
Lemma detector_in_pml : exists c g, proper c /\ 1 <= f_scaling c * f_pml c /\ known_kinds c
  /\ init_fdtd c None (1 / 1000000) = Ok g
  /\ (columns c - pml_columns c <= transmission_column c)%nat
  /\ nth_error (g_detectors g) 0 = Some (FieldDetector (column_cells (transmission_column c)) [] []).
Proof.
  exists edge_cfg. pose proof edge_cfg_proper as P.
  assert (K : known_kinds edge_cfg) by (split; cbn; auto).
  destruct (free_space_layout edge_cfg (1/1000000) P ltac:(cbn; lra) K ltac:(lra)) as (g & src & E & F & _).
  exists g. split; [exact P|]. split; [cbn; lra|]. split; [exact K|]. split; [exact E|]. split.
  - unfold columns, pml_columns, transmission_column, material_end, edge, layer_begin. cbn [f_thick edge_cfg length firstn].
    unfold Rsum. cbn [fold_right].
    rewrite (column_of edge_cfg _ 60) by (cbn; lra). rewrite (column_of edge_cfg _ 15) by (cbn; lra).
    rewrite (column_of edge_cfg _ 35) by (cbn; lra). cbn [f_det edge_cfg]. apply Nat.leb_le. reflexivity.
  - destruct F as (_ & _ & _ & _ & _ & -> & _). reflexivity.
Qed.

(** The thickness announced for a layer assumes that it starts where the first
    one starts. *)
Lemma announced_layer s p fr t w : 0 < s -> 0 < p -> 0 < fr -> 0 < t ->
  grid_scale_layer (Fin s) (Fin p) (Fin fr) (VFloat (Fin t)) = Ok w ->
  let c T := mkFcfg s p fr T 1 0 0 "" "" 0 0 in
  let cells := IZR (Z.of_nat (edge (c [t]) 1) - Z.of_nat (edge (c [t]) 0)) in
  (w = None -> t = cells / s) /\ (forall d, w = Some d -> d = Fin (cells / s)).
Proof.
  intros Hs Hp Hf Ht H c cells. unfold grid_scale_layer in H. cbn [to_num num_of bind fadd fmul] in H.
  unfold fint in H. cbn [bind] in H.
  assert (E1 : Rtrunc (s * (p + fr + t)) = Z.of_nat (edge (c [t]) 1)).
  { rewrite Rtrunc_nonneg by nra. unfold edge, layer_begin. cbn [firstn f_thick c f_pml f_free]. unfold Rsum. cbn [fold_right].
    rewrite column_Z by (cbn; lra). cbn. f_equal. ring. }
  assert (E0 : Rtrunc (s * (p + fr)) = Z.of_nat (edge (c [t]) 0)).
  { rewrite Rtrunc_nonneg by nra. unfold edge, layer_begin. cbn [firstn f_thick c f_pml f_free]. unfold Rsum. cbn [fold_right].
    rewrite column_Z by (cbn; lra). cbn. f_equal. ring. }
  rewrite E1, E0 in H. unfold fdiv in H. destruct (Req_EM_T s 0); [lra|]. cbn [bind] in H.
  destruct (feq (Fin t) _) eqn:EQ; inversion H; subst w; split; try discriminate.
  - intros _. apply feq_iff in EQ as [EQ _]. injection EQ as EQ. exact EQ.
  - intros d X. injection X as <-. reflexivity.
Qed.

Lemma announced_thickness_wrong : exists s p fr T, 0 < s /\ 0 < p /\ 0 < fr /\ Forall (fun t => 0 < t) T /\
  let c := mkFcfg s p fr T 1 0 0 "" "" 0 0 in
  exists i d, grid_scale_layer (Fin s) (Fin p) (Fin fr) (VFloat (Fin (nth i T 0))) = Ok (Some (Fin d))
    /\ d <> IZR (Z.of_nat (edge c (S i)) - Z.of_nat (edge c i)) / s.
Proof.
  exists 10, (3/2), 1, [15/100; 15/100]. repeat (split; [lra|]). split; [repeat constructor; lra|].
  intros c. exists 1%nat, (1/10). cbn [nth]. split.
  - unfold grid_scale_layer. cbn [to_num num_of bind fadd fmul]. unfold fint. cbn [bind].
    rewrite !Rtrunc_nonneg by lra. rewrite (Rfloor_eq _ 26) by lra. rewrite (Rfloor_eq _ 25) by lra.
    unfold fdiv. destruct (Req_EM_T 10 0); [lra|]. cbn [bind].
    destruct (feq _ _) eqn:EQ; [apply feq_iff in EQ as [EQ _]; injection EQ; intros; cbn in *; lra|].
    repeat f_equal; cbn; lra.
  - unfold edge, layer_begin. cbn [firstn f_thick c f_pml f_free]. unfold Rsum. cbn [fold_right]. unfold column. cbn [f_scaling c].
    rewrite (Rfloor_eq _ 28) by lra. rewrite (Rfloor_eq _ 26) by lra. change (Z.of_nat (Z.to_nat 28) - Z.of_nat (Z.to_nat 26))%Z with 2%Z. intros X. lra.
Qed.

(** The difference is never more than one grid point. *)
Lemma announced_within_one c i : proper c -> (i < length (f_thick c))%nat ->
  let t := nth i (f_thick c) 0 in
  exists w, grid_scale_layer (Fin (f_scaling c)) (Fin (f_pml c)) (Fin (f_free c)) (VFloat (Fin t)) = Ok w
  /\ let said := match w with Some (Fin d) => d | _ => t end in
     Rabs (said - IZR (Z.of_nat (edge c (S i)) - Z.of_nat (edge c i)) / f_scaling c) <= 1 / f_scaling c.
Proof.
  intros P Hi t. pose proof P as [Hs Hp Hf HT _ _]. set (s := f_scaling c) in *.
  assert (Pt : 0 < t) by (apply (Forall_nth _ _) with (i := i) (d := 0) in HT; assumption).
  unfold grid_scale_layer. cbn [to_num num_of bind fadd fmul]. unfold fint. cbn [bind].
  unfold fdiv. destruct (Req_EM_T s 0); [lra|]. cbn [bind]. eexists. split; [reflexivity|].
  set (a := IZR (Rtrunc (s * (f_pml c + f_free c + t)) - Rtrunc (s * (f_pml c + f_free c)))).
  assert (K : match (if feq (Fin t) (Fin (a / s)) then None else Some (Fin (a / s))) with Some (Fin d) => d | _ => t end = a / s).
  { destruct (feq _ _) eqn:EQ; [|reflexivity]. apply feq_iff in EQ as [EQ _]. injection EQ as EQ. exact EQ. }
  cbv zeta. cbn [fmul]. change (a * / s) with (a / s). rewrite K. clear K.
  assert (E : forall j, (j <= length (f_thick c))%nat -> Z.of_nat (edge c j) = Rfloor (s * layer_begin c j)).
  { intros j Hj. unfold edge. destruct (begin_nonneg c j P). rewrite column_Z by (fold s; lra). reflexivity. }
  rewrite !E by lia. rewrite layer_begin_S by exact Hi. fold t.
  assert (a / s - IZR (Rfloor (s * (layer_begin c i + t)) - Rfloor (s * layer_begin c i)) / s
    = IZR ((Rtrunc (s * (f_pml c + f_free c + t)) - Rtrunc (s * (f_pml c + f_free c))) - (Rfloor (s * (layer_begin c i + t)) - Rfloor (s * layer_begin c i))) / s) as ->.
  { unfold a. rewrite !minus_IZR. field. lra. }
  unfold Rdiv. rewrite Rabs_mult, (Rabs_right (/ s)) by (apply Rle_ge, Rlt_le, Rinv_0_lt_compat; lra).
  apply Rmult_le_compat_r; [apply Rlt_le, Rinv_0_lt_compat; lra|]. rewrite <- abs_IZR. apply IZR_le.
  rewrite !Rtrunc_nonneg by nra.
  assert (FL : forall x y, 0 <= y -> (Rfloor y <= Rfloor (x + y) - Rfloor x <= Rfloor y + 1)%Z).
  { intros x y Hy. pose proof (Rfloor_spec x) as [X1 X2]. pose proof (Rfloor_spec y) as [Y1 Y2]. pose proof (Rfloor_spec (x + y)) as [Z1 Z2].
    split.
    - apply Z.lt_succ_r. apply lt_IZR. rewrite succ_IZR, minus_IZR. lra.
    - apply Z.lt_succ_r. apply lt_IZR. rewrite succ_IZR, minus_IZR, plus_IZR. lra. }
  pose proof (FL (s * (f_pml c + f_free c)) (s * t) ltac:(nra)) as F1.
  pose proof (FL (s * layer_begin c i) (s * t) ltac:(nra)) as F2.
  rewrite <- !Rmult_plus_distr_l in F1, F2. lia.
Qed.

(** ** The whole spectrum *)

Lemma prepared_valid c w T w0 w1 p sx sy : validate_config c = Ok w -> fdtd_numbers c T w0 w1 p sx sy ->
  exists c' wls f N d free,
    prepare_fdtd c = Ok (c', wls) /\ read_fdtd c' = Ok f /\ proper f /\ known_kinds f
    /\ get_int c "N_layers" = Ok (Z.of_nat N) /\ length (f_thick f) = N
    /\ (forall i, (i < N)%nat -> nth i (f_thick f) 0 = nth (if Nat.eqb (length T) 1 then 0 else i) T 0)
    /\ get_int c "N_freq" = Ok (Z.of_nat (length wls)) /\ (0 < N)%nat /\ (0 < length wls)%nat
    /\ (forall wl, In wl wls -> w0 <= wl <= w1 /\ UNIT_MAGNITUDE <= wl * f_scaling f)
    /\ (exists m, get_int c "FDTD_min_gridpoints_per_unit_magnitude" = Ok m
          /\ f_scaling f = gridpoints_per_um (Fin w0) (IZR m))
    /\ entry c "FDTD_free_space_distance" (VFloat (Fin free)) /\ f_free f = free /\ f_pml f = p
    /\ get_int c "FDTD_gridpoints_from_material_to_detector" = Ok d /\ f_det f = d
    /\ f_src_x f = sx /\ f_src_y f = sy /\ get_int c "FDTD_niter" = Ok (f_niter f) /\ (0 < f_niter f)%Z.
Proof. intros V. apply prepared. eapply validate_sound, V. Qed.

Lemma spectrum_entries eps c r t c' : compute_spectrum_fdtd eps c = Ok (r, t, c') ->
  exists f wls, prepare_fdtd c = Ok (c', wls) /\ read_fdtd c' = Ok f
  /\ length r = length wls /\ length t = length wls
  /\ forall k wl, nth_error wls k = Some wl -> exists slice tk rk, nth_error eps k = Some slice
       /\ one_wavelength f wl slice = Ok (tk, rk) /\ nth_error t k = Some tk /\ nth_error r k = Some rk.
Proof.
  unfold compute_spectrum_fdtd. intros H. apply bind_ok in H as ([c1 wls] & H1 & H). cbn [fst snd] in H.
  apply bind_ok in H as (f & H2 & H). apply bind_ok in H as ([t' r'] & H3 & H). inversion H; subst; clear H.
  exists f, wls. destruct (spectra_nth _ _ _ _ _ _ H3) as (L1 & L2 & N). auto.
Qed.

(** It is returned exactly when every entry can be computed. *)
Lemma spectrum_returned eps c c' wls f : prepare_fdtd c = Ok (c', wls) -> read_fdtd c' = Ok f ->
  ((exists r t, compute_spectrum_fdtd eps c = Ok (r, t, c')) <->
   (forall k wl, nth_error wls k = Some wl -> exists slice tr, nth_error eps k = Some slice /\ one_wavelength f wl slice = Ok tr)).
Proof.
  intros H1 H2. rewrite <- (spectra_total f wls 0 eps). unfold compute_spectrum_fdtd. rewrite H1. cbn [bind fst snd]. rewrite H2. cbn [bind].
  split.
  - intros (r & t & H). apply bind_ok in H as (tr & H & _). eauto.
  - intros [tr H]. rewrite H. cbn [bind]. eauto.
Qed.

(** Vacuum layers, through the config: no reflection at any wavelength. *)
Lemma vacuum_spectrum eps c w T w0 w1 p sx sy r t c' : validate_config c = Ok w -> fdtd_numbers c T w0 w1 p sx sy ->
  (forall f, read_fdtd c' = Ok f -> 1 <= f_scaling f * p) ->
  (forall slice, In slice eps -> exists row layers N, get slice 0 = Ok row /\ get row 0 = Ok layers
      /\ get_int c "N_layers" = Ok (Z.of_nat N) /\ (length layers <= N)%nat /\ forall e, In e layers -> e = (1, 0)) ->
  compute_spectrum_fdtd eps c = Ok (r, t, c') ->
  forall x, In x r -> x = Fin 0 \/ x = NaN.
Proof.
  intros V FN HP HE H x Hx. destruct (spectrum_entries _ _ _ _ _ H) as (f & wls & H1 & H2 & L1 & L2 & EN).
  destruct (prepared_valid _ _ _ _ _ _ _ _ V FN) as (c2 & wls2 & f2 & N & d & free & P1 & P2 & PR & KN & GN & LN & _ & _ & N0 & _ & WR & _ & _ & _ & FP & _).
  rewrite H1 in P1. injection P1 as <- <-. rewrite H2 in P2. injection P2 as <-.
  apply In_nth_error in Hx as [k Hk].
  destruct (nth_error wls k) as [wl|] eqn:EW.
  2: { apply nth_error_None in EW. assert (nth_error r k <> None) as X by congruence. apply nth_error_Some in X. lia. }
  destruct (EN k wl EW) as (slice & tk & rk & E1 & E2 & E3 & E4). rewrite Hk in E4. injection E4 as <-.
  destruct (HE slice (nth_error_In _ _ E1)) as (row & layers & N' & G1 & G2 & G3 & G4 & G5).
  rewrite GN in G3. injection G3 as G3. apply Nat2Z.inj in G3. subst N'.
  destruct (WR wl (nth_error_In _ _ EW)) as [_ WR2].
  eapply (vacuum_no_reflection f wl slice row layers); eauto.
  - rewrite FP. auto.
  - pose proof UNIT_pos. pose proof (pr_scaling _ PR). apply (Rmult_lt_reg_r (f_scaling f)); lra.
  - intros X. rewrite X in LN. cbn in LN. lia.
  - lia.
Qed.

(** ** The default config *)
Lemma default_numbers : fdtd_numbers default_config [1] (1/1000000) (30/1000000) (3/2) (3/2) 1.
Proof.
  constructor.
  - eexists. split; [reflexivity|]. repeat constructor. lra.
  - do 3 eexists. split; [reflexivity|]. split; [reflexivity|]. split; [reflexivity|]. lra.
  - reflexivity.
  - do 3 eexists. split; [reflexivity|]. split; reflexivity.
Qed.
Lemma default_simulation : exists c' wls f, prepare_fdtd default_config = Ok (c', wls) /\ read_fdtd c' = Ok f
  /\ length wls = 20%nat /\ proper f /\ 1 <= f_scaling f * f_pml f /\ known_kinds f /\ usable_source f
  /\ length (f_thick f) = 8%nat /\ f_scaling f = 10.
Proof.
  destruct (prepared_valid _ _ _ _ _ _ _ _ default_accepted default_numbers)
    as (c' & wls & f & N & d & free & P1 & P2 & PR & KN & GN & LN & TH & GF & N0 & _ & WR & (m & GM & SC) & EF & FF & FP & GD & FD & SX & SY & _).
  exists c', wls, f. cbn in GN, GM, GF. injection GN as GN. injection GM as GM. injection GF as GF.
  assert (N = 8%nat) as -> by lia. assert (m = 10%Z) as -> by lia. assert (length wls = 20%nat) by lia.
  assert (S10 : f_scaling f = 10).
  { rewrite SC. cbn. replace (/ 1000000 / (1 / 1000000 / 10)) with 10 by (field). apply Rmax_left. lra. }
  assert (FR : f_free f = 1). { rewrite FF. unfold entry in EF. cbn in EF. unfold fl in EF. injection EF as EF. lra. }
  assert (TT : f_thick f = repeat 1 8).
  { apply nth_ext with (d := 0) (d' := 0); [rewrite LN; reflexivity|]. intros i Hi. rewrite TH by lia. cbn [length Nat.eqb nth].
    rewrite nth_repeat_lt by lia. reflexivity. }
  repeat (split; [first [assumption|rewrite S10, FP; lra]|]). split; [|split; assumption].
  split.
  - rewrite SX, S10. unfold index_ok, columns. rewrite FR, FP, TT. unfold Rsum. cbn [repeat fold_right].
    rewrite (column_of f _ 130) by (rewrite S10; lra). rewrite Rtrunc_nonneg by lra. rewrite (Rfloor_eq _ 15) by lra. cbn. lia.
  - left. unfold read_fdtd in P2. destruct (prepare_inv _ _ _ P1) as (AG & _).
    repeat (apply bind_ok in P2 as (? & ? & P2)). injection P2 as <-. cbn [f_source].
    match goal with K : get_str c' "FDTD_source_type" = _ |- _ => unfold get_str, getitem in K; rewrite AG in K by (cbn; intuition discriminate) ; cbn in K; congruence end.
Qed.
