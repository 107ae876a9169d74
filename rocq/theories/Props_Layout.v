(** Property theorems C28, C29, C59 and C62: FDTD simulations and spectra. *)
From Coq Require Import Reals ZArith String List Bool Lra Lia.
From Verif Require Import Base BaseLemmas PyVal Spec_Config Model_Config Proof_Config Model_Units Model_EpsGrid Model_Coeffs Model_FDTD Model_Register
  Spec_FDTD Spec_Register Model_Layout Spec_Layout Proof_Layout Proof_Spectrum Proof_Spectrum2 Proof_Spectrum3 Proof_Vacuum Proof_Readout Proof_Window Proof_Layout2.
Import ListNotations.
Open Scope R_scope.

(** C28: an accepted config with proper numbers gives a proper simulation:
    one thickness per layer, ten grid points per shortest wavelength. *)
Theorem C28_valid_config_proper : forall c w T w0 w1 p sx sy,
  validate_config c = Ok w -> fdtd_numbers c T w0 w1 p sx sy ->
  exists c' wls f N d free,
    prepare_fdtd c = Ok (c', wls) /\ read_fdtd c' = Ok f /\ proper f /\ known_kinds f
    /\ get_int c "N_layers" = Ok (Z.of_nat N) /\ length (f_thick f) = N
    /\ (forall i, (i < N)%nat -> nth i (f_thick f) 0 = nth (if Nat.eqb (length T) 1 then 0 else i) T 0)
    /\ get_int c "N_freq" = Ok (Z.of_nat (length wls)) /\ (0 < N)%nat /\ (0 < length wls)%nat
    /\ (forall wl, In wl wls -> w0 <= wl <= w1 /\ UNIT_MAGNITUDE <= wl * f_scaling f)
    /\ (exists m, get_int c "FDTD_min_gridpoints_per_unit_magnitude" = Ok m
          /\ f_scaling f = gridpoints_per_um (Fin w0) (IZR m))
    /\ entry c "FDTD_free_space_distance" (VFloat (Fin free)) /\ f_free f = free /\ f_pml f = p
    /\ get_int c "FDTD_gridpoints_from_material_to_detector" = Ok d /\ f_det f = d
    /\ f_src_x f = sx /\ f_src_y f = sy /\ get_int c "FDTD_niter" = Ok (f_niter f) /\ (0 < f_niter f)%Z.
Proof. exact prepared_valid. Qed.
Print Assumptions C28_valid_config_proper.
(** Detectors, layers and PMLs are in this order; layers are consecutive
    because layer [i] spans the columns from [edge c i] to [edge c (S i)]. *)
Theorem C28_positions : forall c,
  proper c ->
  (pml_columns c <= reflection_column c)%nat
  /\ (reflection_column c < edge c 0)%nat
  /\ (forall i, edge c i <= edge c (S i))%nat
  /\ (material_end c < transmission_column c)%nat
  /\ (transmission_column c <= columns c - pml_columns c)%nat
  /\ (1 <= f_scaling c * f_pml c -> (transmission_column c < columns c)%nat)
  /\ (IZR (f_det c) + 1 <= f_scaling c * f_free c -> (transmission_column c < columns c - pml_columns c)%nat).
Proof. exact positions. Qed.
Print Assumptions C28_positions.
(** The free-space grid. *)
Theorem C28_free_space : forall c wl,
  proper c -> 1 <= f_scaling c * f_pml c -> known_kinds c -> 0 < wl ->
  exists g src, init_fdtd c None wl = Ok g /\ framed c g /\ g_sources g = [src] /\ the_source c wl src
    /\ g_ie g = (fun _ _ => 1) /\ g_abs g = zero_field.
Proof. exact free_space_layout. Qed.
Print Assumptions C28_free_space.
(** The grid with layers exists exactly if there is a thickness for every layer;
    it differs from the free-space grid only in the layers' cells, which have
    their layer's permittivity and conductivity. *)
Theorem C28_layers : forall c slice wl row layers,
  proper c -> 1 <= f_scaling c * f_pml c -> known_kinds c -> 0 < wl ->
  f_thick c <> [] -> get slice 0 = Ok row -> get row 0 = Ok layers -> layers <> [] ->
  ((length layers <= length (f_thick c))%nat <-> exists g, init_fdtd c (Some slice) wl = Ok g)
  /\ forall g, init_fdtd c (Some slice) wl = Ok g ->
    framed c g /\ (exists src, g_sources g = [src] /\ the_source c wl src)
    /\ forall p a, in_grid (g_N g) p ->
      ((coord AX p < edge c 0 \/ edge c (length layers) <= coord AX p)%nat -> g_ie g p a = 1 /\ g_abs g p a = 0)
      /\ forall j, (j < length layers)%nat -> (edge c j <= coord AX p < edge c (S j))%nat ->
         let e := nth j layers (0, 0) in
         (regular_cell a (edge c j) (edge c (S j)) p -> g_ie g p a = 1 / fst e)
         /\ (~ regular_cell a (edge c j) (edge c (S j)) p -> g_ie g p a = 1)
         /\ g_abs g p a = / 2 * g_courant g * g_ie g p a * conductivity e wl * g_spacing g * ETA_0.
Proof. exact material_layout. Qed.
Print Assumptions C28_layers.
(** Fewer thicknesses than layers: IndexError. *)
Theorem C28_missing_thickness : forall c slice wl row layers,
  proper c -> 1 <= f_scaling c * f_pml c -> known_kinds c -> 0 < wl ->
  get slice 0 = Ok row -> get row 0 = Ok layers -> (length (f_thick c) < length layers)%nat ->
  init_fdtd c (Some slice) wl = Err IndexError.
Proof. exact missing_thickness. Qed.
Print Assumptions C28_missing_thickness.
Example C28_missing_case : (exists c' wls f, prepare_fdtd default_config = Ok (c', wls) /\ read_fdtd c' = Ok f
    /\ proper f /\ 1 <= f_scaling f * f_pml f /\ known_kinds f /\ (length (f_thick f) < 9)%nat)
  /\ get [[repeat (2, 1/10) 9]] 0 = Ok [repeat (2, 1/10) 9] /\ get [repeat (2, 1/10) 9] 0 = Ok (repeat (2, 1/10) 9).
Proof.
  split; [|split; reflexivity]. destruct default_simulation as (c' & wls & f & P & R & _ & H1 & H2 & H3 & _ & H4 & _).
  exists c', wls, f. repeat (split; [assumption|]). lia.
Qed.
(** A PML of less than one grid point cannot be placed. *)
Theorem C28_thin_pml_raises : forall c (obj : option eps_slice) wl,
  proper c -> f_scaling c * f_pml c < 1 ->
  forall g, init_fdtd c obj wl <> Ok g.
Proof. exact thin_pml_raises. Qed.
Print Assumptions C28_thin_pml_raises.
Example C28_thin_case : let c := mkFcfg 10 (1/20) 2 [1] 1 1 1 "continuous" "line" 10 10 in
  proper c /\ f_scaling c * f_pml c < 1.
Proof. cbv zeta. split; [constructor; cbn; try lra; try lia; repeat constructor; lra|cbn; lra]. Qed.
(** The transmission detector need not be in front of the right PML. *)
Theorem C28_detector_before_pml_refuted : exists c g, proper c /\ 1 <= f_scaling c * f_pml c /\ known_kinds c
  /\ init_fdtd c None (1 / 1000000) = Ok g
  /\ (columns c - pml_columns c <= transmission_column c)%nat
  /\ nth_error (g_detectors g) 0 = Some (FieldDetector (column_cells (transmission_column c)) [] []).
Proof. exact detector_in_pml. Qed.
Print Assumptions C28_detector_before_pml_refuted.
Example C28_case : exists c' wls f, prepare_fdtd default_config = Ok (c', wls) /\ read_fdtd c' = Ok f
  /\ length wls = 20%nat /\ proper f /\ 1 <= f_scaling f * f_pml f /\ known_kinds f /\ usable_source f
  /\ length (f_thick f) = 8%nat /\ f_scaling f = 10.
Proof. exact default_simulation. Qed.
Example C28_numbers_case : validate_config default_config = Ok []
  /\ fdtd_numbers default_config [1] (1/1000000) (30/1000000) (3/2) (3/2) 1.
Proof. split; [exact default_accepted|exact default_numbers]. Qed.

(** C29: entry [k] of both spectra comes from wavelength [k] and slice [k]. *)
Theorem C29_entries : forall eps c r t c',
  compute_spectrum_fdtd eps c = Ok (r, t, c') ->
  exists f wls, prepare_fdtd c = Ok (c', wls) /\ read_fdtd c' = Ok f
  /\ length r = length wls /\ length t = length wls
  /\ forall k wl, nth_error wls k = Some wl -> exists slice tk rk, nth_error eps k = Some slice
       /\ one_wavelength f wl slice = Ok (tk, rk) /\ nth_error t k = Some tk /\ nth_error r k = Some rk.
Proof. exact spectrum_entries. Qed.
Print Assumptions C29_entries.
Theorem C29_returned_iff : forall eps c c' wls f,
  prepare_fdtd c = Ok (c', wls) -> read_fdtd c' = Ok f ->
  ((exists r t, compute_spectrum_fdtd eps c = Ok (r, t, c')) <->
   (forall k wl, nth_error wls k = Some wl -> exists slice tr, nth_error eps k = Some slice /\ one_wavelength f wl slice = Ok tr)).
Proof. exact spectrum_returned. Qed.
Print Assumptions C29_returned_iff.
(** The first wavelength that fails, or has no permittivities, decides what is raised. *)
Theorem C29_first_error : forall eps c c' wls f k e,
  prepare_fdtd c = Ok (c', wls) -> read_fdtd c' = Ok f -> (k < length wls)%nat ->
  (forall j wl, (j < k)%nat -> nth_error wls j = Some wl -> exists slice tr, nth_error eps j = Some slice /\ one_wavelength f wl slice = Ok tr) ->
  (nth_error eps k = None /\ e = IndexError \/ exists wl slice, nth_error wls k = Some wl /\ nth_error eps k = Some slice /\ one_wavelength f wl slice = Err e) ->
  compute_spectrum_fdtd eps c = Err e.
Proof. exact spectrum_first. Qed.
Print Assumptions C29_first_error.
Example C29_first_case : compute_spectrum_fdtd [] default_config = Err IndexError
  /\ compute_spectrum_fdtd [[[repeat (-2, 1/10) 8]]] default_config = Err ValueError.
Proof.
  destruct default_simulation as (c' & wls & f & P & R & L & _ & _ & _ & _ & LT & _).
  assert (LW : (0 < length wls)%nat) by (rewrite L; lia). split.
  - apply (C29_first_error [] default_config c' wls f 0 IndexError P R LW); [intros; lia|]. left. split; reflexivity.
  - apply (C29_first_error _ default_config c' wls f 0 ValueError P R LW); [intros; lia|]. right. destruct wls as [|wl wls]; [cbn in LW; lia|].
    exists wl, [[repeat (-2, 1/10) 8]]. split; [reflexivity|]. split; [reflexivity|]. apply negative_permittivity.
    + intros E. rewrite E in LT. discriminate.
    + discriminate.
    + intros e He. cbn in He. repeat (destruct He as [<-|He]; [cbn; lra|]). contradiction.
Qed.
(** One entry: two simulations, one sample per time step at each detector, and a
    window of three wavelengths, in grid points, for the steady state. *)
Theorem C29_entry_value : forall f wl (slice : eps_slice) row layers,
  proper f -> 1 <= f_scaling f * f_pml f -> known_kinds f -> usable_source f ->
  UNIT_MAGNITUDE <= wl * f_scaling f ->
  get slice 0 = Ok row -> get row 0 = Ok layers -> f_thick f <> [] -> layers <> [] -> (length layers <= length (f_thick f))%nat ->
  (exists e, In e (concat (concat slice)) /\ 0 <= fst e) ->
  exists tf rf tm rm w, simulate f None wl = Ok (tf, rf) /\ simulate f (Some slice) wl = Ok (tm, rm)
    /\ length tf = Z.to_nat (f_niter f) /\ length rf = Z.to_nat (f_niter f)
    /\ length tm = Z.to_nat (f_niter f) /\ length rm = Z.to_nat (f_niter f)
    /\ INR w <= 3 * INR (f_min_gp f) * (wl / UNIT_MAGNITUDE) < INR w + 1
    /\ one_wavelength f wl slice = calculate_coefficients w tf tm rf rm.
Proof. exact entry_value_window. Qed.
Print Assumptions C29_entry_value.
(** Which signals: sample [k] is the mean of the electric field along z over the
    detector's column after step [k + 1], the first signal from the column behind
    the material, the second from the one before it. *)
Theorem C29_signals : forall f (obj : option eps_slice) wl t r,
  proper f -> 1 <= f_scaling f * f_pml f -> known_kinds f -> 0 < wl ->
  (obj = None \/ exists slice row layers, obj = Some slice /\ get slice 0 = Ok row /\ get row 0 = Ok layers) ->
  simulate f obj wl = Ok (t, r) ->
  exists g, init_fdtd f obj wl = Ok g /\ length t = Z.to_nat (f_niter f) /\ length r = Z.to_nat (f_niter f)
  /\ forall k gk, (k < Z.to_nat (f_niter f))%nat -> run_steps (S k) g = Ok gk ->
     nth_error t k = Some (column_mean gk (transmission_column f)) /\ nth_error r k = Some (column_mean gk (reflection_column f)).
Proof. exact simulate_signals. Qed.
Print Assumptions C29_signals.
(** What happens to the config; a second call gives the same result. *)
Theorem C29_config_and_second_call : forall eps c r t c',
  compute_spectrum_fdtd eps c = Ok (r, t, c') ->
  (forall k, ~ In k ["target_frequencies"; "PER_LAYER_THICKNESS"; "FDTD_grid_scaling"]%string -> forall v, entry c' k v <-> entry c k v)
  /\ (exists l n, entry c "PER_LAYER_THICKNESS" (VList l) /\ (exists v, entry c "N_layers" v /\ num_of v = Some (Fin (IZR n)))
      /\ (length l = 1%nat -> (1 < n)%Z -> forall x, In x l -> entry c' "PER_LAYER_THICKNESS" (VList (repeat x (Z.to_nat n))))
      /\ (length l <> 1%nat \/ (n <= 1)%Z -> entry c' "PER_LAYER_THICKNESS" (VList l)))
  /\ compute_spectrum_fdtd eps c' = Ok (r, t, c').
Proof. exact spectrum_config. Qed.
Print Assumptions C29_config_and_second_call.
(** Failures for accepted configs. *)
Theorem C29_negative_permittivity_raises : forall f wl (slice : eps_slice),
  f_thick f <> [] -> concat (concat slice) <> [] ->
  (forall e, In e (concat (concat slice)) -> fst e < 0) -> one_wavelength f wl slice = Err ValueError.
Proof. exact negative_permittivity. Qed.
Print Assumptions C29_negative_permittivity_raises.
Theorem C29_empty_slice_raises : forall f wl (slice : eps_slice),
  f_thick f <> [] -> concat (concat slice) = [] -> one_wavelength f wl slice = Err RuntimeError.
Proof. exact empty_slice. Qed.
Print Assumptions C29_empty_slice_raises.
Example C29_empty_case : compute_spectrum_fdtd [[[]]] default_config = Err RuntimeError.
Proof.
  destruct default_simulation as (c' & wls & f & P & R & L & _ & _ & _ & _ & LT & _).
  assert (LW : (0 < length wls)%nat) by (rewrite L; lia).
  apply (C29_first_error _ default_config c' wls f 0 RuntimeError P R LW); [intros; lia|]. right. destruct wls as [|wl wls]; [cbn in LW; lia|].
  exists wl, [[]]. split; [reflexivity|]. split; [reflexivity|]. apply empty_slice; [intros E; rewrite E in LT; discriminate|reflexivity].
Qed.
Theorem C29_point_source_rows_raise : forall c (obj : option eps_slice) wl,
  proper c -> 1 <= f_scaling c * f_pml c -> known_kinds c -> 0 < wl ->
  f_source c = "point"%string -> (3 <= Rtrunc (f_src_y c * f_scaling c))%Z -> (0 < f_niter c)%Z ->
  (obj = None \/ exists slice row layers, obj = Some slice /\ get slice 0 = Ok row /\ get row 0 = Ok layers) ->
  forall tr, simulate c obj wl <> Ok tr.
Proof. exact point_rows_raise. Qed.
Print Assumptions C29_point_source_rows_raise.
Example C29_point_case : let c := mkFcfg 10 (3/2) 2 [1] 1 (3/2) 1 "continuous" "point" 10 10 in
  proper c /\ 1 <= f_scaling c * f_pml c /\ known_kinds c /\ (3 <= Rtrunc (f_src_y c * f_scaling c))%Z.
Proof.
  cbv zeta. split; [constructor; cbn; try lra; try lia; repeat constructor; lra|]. split; [cbn; lra|].
  split; [split; cbn; auto|]. cbn. replace (1 * 10) with (IZR 10) by lra. rewrite Rtrunc_IZR. lia.
Qed.
Example C29_case : (exists c' wls f, prepare_fdtd default_config = Ok (c', wls) /\ read_fdtd c' = Ok f
    /\ length wls = 20%nat /\ proper f /\ 1 <= f_scaling f * f_pml f /\ known_kinds f /\ usable_source f
    /\ length (f_thick f) = 8%nat /\ f_scaling f = 10)
  /\ let slice : eps_slice := [[repeat (2, 1/10) 8]] in
     get slice 0 = Ok [repeat (2, 1/10) 8] /\ get [repeat (2, 1/10) 8] 0 = Ok (repeat (2, 1/10) 8)
     /\ exists e, In e (concat (concat slice)) /\ 0 <= fst e.
Proof.
  split; [exact default_simulation|]. split; [reflexivity|]. split; [reflexivity|]. exists (2, 1/10). cbn. split; [auto|lra].
Qed.

(** C59: the announced thickness of a layer is the one it would have as the only
    layer. *)
Theorem C59_announced_as_if_first : forall s p fr t w,
  0 < s -> 0 < p -> 0 < fr -> 0 < t ->
  grid_scale_layer (Fin s) (Fin p) (Fin fr) (VFloat (Fin t)) = Ok w ->
  let c T := mkFcfg s p fr T 1 0 0 "" "" 0 0 in
  let cells := IZR (Z.of_nat (edge (c [t]) 1) - Z.of_nat (edge (c [t]) 0)) in
  (w = None -> t = cells / s) /\ (forall d, w = Some d -> d = Fin (cells / s)).
Proof. exact announced_layer. Qed.
Print Assumptions C59_announced_as_if_first.
Theorem C59_announced_is_actual_refuted : exists s p fr T, 0 < s /\ 0 < p /\ 0 < fr /\ Forall (fun t => 0 < t) T /\
  let c := mkFcfg s p fr T 1 0 0 "" "" 0 0 in
  exists i d, grid_scale_layer (Fin s) (Fin p) (Fin fr) (VFloat (Fin (nth i T 0))) = Ok (Some (Fin d))
    /\ d <> IZR (Z.of_nat (edge c (S i)) - Z.of_nat (edge c i)) / s.
Proof. exact announced_thickness_wrong. Qed.
Print Assumptions C59_announced_is_actual_refuted.
Theorem C59_within_one_gridpoint : forall c i,
  proper c -> (i < length (f_thick c))%nat ->
  let t := nth i (f_thick c) 0 in
  exists w, grid_scale_layer (Fin (f_scaling c)) (Fin (f_pml c)) (Fin (f_free c)) (VFloat (Fin t)) = Ok w
  /\ let said := match w with Some (Fin d) => d | _ => t end in
     Rabs (said - IZR (Z.of_nat (edge c (S i)) - Z.of_nat (edge c i)) / f_scaling c) <= 1 / f_scaling c.
Proof. exact announced_within_one. Qed.
Print Assumptions C59_within_one_gridpoint.
Example C59_case : proper edge_cfg /\ (0 < length (f_thick edge_cfg))%nat.
Proof. split; [exact edge_cfg_proper|cbn; lia]. Qed.

(** C62: vacuum layers reflect nothing. *)
Theorem C62_vacuum_simulation_is_free_space : forall f wl (slice : eps_slice) row layers,
  proper f -> 1 <= f_scaling f * f_pml f -> known_kinds f -> 0 < wl ->
  get slice 0 = Ok row -> get row 0 = Ok layers -> f_thick f <> [] -> (length layers <= length (f_thick f))%nat ->
  (forall e, In e layers -> e = (1, 0)) ->
  simulate f (Some slice) wl = simulate f None wl.
Proof. exact vacuum_simulation. Qed.
Print Assumptions C62_vacuum_simulation_is_free_space.
Theorem C62_vacuum_no_reflection : forall f wl (slice : eps_slice) row layers t r,
  proper f -> 1 <= f_scaling f * f_pml f -> known_kinds f -> 0 < wl ->
  get slice 0 = Ok row -> get row 0 = Ok layers -> f_thick f <> [] -> (length layers <= length (f_thick f))%nat ->
  (forall e, In e layers -> e = (1, 0)) ->
  one_wavelength f wl slice = Ok (t, r) -> r = Fin 0 \/ r = NaN.
Proof. exact vacuum_no_reflection. Qed.
Print Assumptions C62_vacuum_no_reflection.
Theorem C62_vacuum_spectrum : forall eps c w T w0 w1 p sx sy r t c',
  validate_config c = Ok w -> fdtd_numbers c T w0 w1 p sx sy ->
  (forall f, read_fdtd c' = Ok f -> 1 <= f_scaling f * p) ->
  (forall slice, In slice eps -> exists row layers N, get slice 0 = Ok row /\ get row 0 = Ok layers
      /\ get_int c "N_layers" = Ok (Z.of_nat N) /\ (length layers <= N)%nat /\ forall e, In e layers -> e = (1, 0)) ->
  compute_spectrum_fdtd eps c = Ok (r, t, c') ->
  forall x, In x r -> x = Fin 0 \/ x = NaN.
Proof. exact vacuum_spectrum. Qed.
Print Assumptions C62_vacuum_spectrum.
Example C62_case : let slice : eps_slice := [[repeat (1, 0) 8]] in
  get slice 0 = Ok [repeat (1, 0) 8] /\ (forall e, In e (repeat (1, 0) 8) -> e = (1, 0))
  /\ exists c' wls f, prepare_fdtd default_config = Ok (c', wls) /\ read_fdtd c' = Ok f
  /\ length wls = 20%nat /\ proper f /\ 1 <= f_scaling f * f_pml f /\ known_kinds f /\ usable_source f
  /\ length (f_thick f) = 8%nat /\ f_scaling f = 10.
Proof.
  split; [reflexivity|]. split; [intros e H; apply repeat_spec in H; exact H|exact default_simulation].
Qed.
