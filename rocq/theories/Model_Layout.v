(** Model of how an FDTD simulation is laid out and how a spectrum is computed
    with it: [nidn/fdtd_integration/init_fdtd.py] ("init" below),
    [compute_spectrum_fdtd.py] ("spec") and [compute_fdtd_grid_scaling.py].

    Simplifications: floats are exact reals (Model_Rounding.v has the rounded
    positions); infinities and NaN in the config are refused with
    OverflowError; [set_backend("torch")] (init 31) has no further effect;
    log messages are dropped. *)
From Coq Require Import Reals ZArith String List Bool Lra Lia.
From Verif Require Import Base PyVal Model_Units Model_EpsGrid Model_Coeffs Model_FDTD Model_Register.
Import ListNotations.
Open Scope R_scope.

(** The config entries an FDTD simulation reads; [f_scaling] is
    [cfg.FDTD_grid_scaling]. *)
Record fdtd_cfg := mkFcfg {
  f_scaling : R; f_pml : R; f_free : R; f_thick : list R; f_det : Z;
  f_src_x : R; f_src_y : R; f_pulse : string; f_source : string;
  f_niter : Z; f_min_gp : nat }.

(** One frequency's slice [permittivity[:, :, :, i]]: x, y, layer; a complex
    number is a pair. *)
Definition eps_slice := list (list (list (R * R))).

(** [grid[key] = component] as a statement that may raise. *)
Definition assign (key : list pykey) (c : component) (g : grid) : res grid :=
  match setitem key c g with
  | (g', None) => Ok g'
  | (_, Some e) => Err e
  end.

(** init 121-138 [_add_boundaries] *)
Definition add_boundaries (p : Z) (g : grid) : res grid :=
  let! g := assign [int_slice (Some 0%Z) (Some p); full_slice; full_slice]
                   (CPML (Some "pml_xlow"%string) default_pml_a) g in
  let! g := assign [int_slice (Some (- p)%Z) None; full_slice; full_slice]
                   (CPML (Some "pml_xhigh"%string) default_pml_a) g in
  assign [full_slice; KNum (PInt 0); full_slice] (CPeriodic (Some "ybounds"%string)) g.

(** init 177-194 [_add_detectors] *)
Definition add_detectors (tx rx : Z) (g : grid) : res grid :=
  let! g := assign [KNum (PInt tx); full_slice; KNum (PInt 0)]
                   (CDetector DLine (Some "t_detector"%string)) g in
  assign [KNum (PInt rx); full_slice; KNum (PInt 0)]
         (CDetector DLine (Some "r_detector"%string)) g.

(** init 157 *)
Definition signal_of (pulse : string) : option signal_type :=
  if String.eqb pulse "continuous" then Some SContinuous
  else if String.eqb pulse "hanning" then Some SHanning
  else if String.eqb pulse "ricker" then Some SRicker else None.

(** init 141-174 [_add_source]: amplitude 1, no phase shift, 5 cycles,
    hanning_dt 1e-15. *)
Definition add_source (sx sy : Z) (period : R) (pulse source : string) (g : grid) : res grid :=
  match signal_of pulse with
  | None => Err AssertionError
  | Some sg =>
    let args := mkSource (PFloat period) 1 0 5 (Some (/ 10 ^ 15)) sg in
    if String.eqb source "point" then
      assign [KNum (PInt sx); KNum (PInt sy); KNum (PInt 0)] (CPoint (Some "pointsource"%string) args) g
    else if String.eqb source "line" then
      assign [KNum (PInt sx); full_slice; KNum (PInt 0)] (CLine (Some "linesource"%string) args) g
    else Err ValueError
  end.

(** init 197-217 [_add_object].  The real part is not zero (1/0 would be an
    infinite inverse permittivity). *)
Definition add_object (a b : Z) (eps : R * R) (frequency : R) (g : grid) : res grid :=
  assign [int_slice (Some a) (Some b); full_slice; full_slice]
         (CObject None (fst eps) (Some (snd eps * frequency * 2 * PI * EPS_0))) g.

Definition get {A} (l : list A) (i : nat) : res A :=
  match nth_error l i with Some x => Ok x | None => Err IndexError end.

(** init 101-116: the loop over the layers, from layer [i] on. *)
Fixpoint add_layers (s : R) (T : list R) (freq : R) (i : nat) (x_start x_end : R)
    (eps : list (R * R)) (g : grid) : res grid :=
  match eps with
  | [] => Ok g
  | e :: r =>
    let! g := add_object (Rtrunc (s * x_start)) (Rtrunc (s * x_end)) e freq g in
    match r with
    | [] => Ok g
    | _ =>
      let! ti := get T i in
      let! tn := get T (S i) in
      add_layers s T freq (S i) (x_start + ti) (x_end + tn) r g
    end
  end.

(** init 18-118 [init_fdtd]; [obj = None] is [include_object=False].  The two
    detectors returned are the first two of the grid. *)
Definition init_fdtd (c : fdtd_cfg) (obj : option eps_slice) (wavelength : R) : res grid :=
  let s := f_scaling c in
  let total := Rsum (f_thick c) in
  let nx := Rtrunc (s * (f_pml c * 2 + f_free c * 2 + total)) in
  let! g := make_grid [PInt nx; PInt 3; PInt 1] (UNIT_MAGNITUDE / s) 1 1 None in
  let! g := add_boundaries (Rtrunc (f_pml c * s)) g in
  let detector_x := (f_pml c + f_free c + total) * s + IZR (f_det c) in
  let detector_y := (f_pml c + f_free c) * s - IZR (f_det c) in
  let! g := add_detectors (Rtrunc detector_x) (Rtrunc detector_y) g in
  let! g := add_source (Rtrunc (f_src_x c * s)) (Rtrunc (f_src_y c * s))
                       (wavelength / SPEED_OF_LIGHT) (f_pulse c) (f_source c) g in
  match obj with
  | None => Ok g
  | Some slice =>
    let x_start := f_pml c + f_free c in
    let! t0 := get (f_thick c) 0 in
    let! row := get slice 0 in
    let! layers := get row 0 in
    add_layers s (f_thick c) (SPEED_OF_LIGHT / wavelength) 0 x_start (x_start + t0) layers g
  end.

(** * Computing a spectrum *)

(** spec 166-182, 185-222: the recommended number of time steps; the square
    root of a negative permittivity is NaN, whose [int] raises ValueError. *)
Definition recommended_timesteps (c : fdtd_cfg) (wavelength : R) (slice : eps_slice) : res Z :=
  match f_thick c, map fst (concat (concat slice)) with
  | _ :: _, [] => Err RuntimeError
  | T, reals =>
    let top := Rmaximum reals in
    if match T with [] => false | _ => Rltb top 0 end then Err ValueError else
    Ok (Rtrunc ((f_free c + 3 * Rsum (map (fun t => t * sqrt top) T)
                 + 5 * wavelength / UNIT_MAGNITUDE) * sqrt 2 * f_scaling c))
  end.

Definition vec3_of (v : vec) : vec3 := (v AX, v AY, v AZ).

(** spec 98-121 [_get_detector_values]: the electric records of the two
    detectors. *)
Definition get_detector_values (g : grid) : res (list R * list R) :=
  match g_detectors g with
  | FieldDetector _ Et _ :: FieldDetector _ Er _ :: _ =>
      Ok (detector_signal (map (map vec3_of) Et), detector_signal (map (map vec3_of) Er))
  | _ => Err AttributeError
  end.

(** spec 51-60, 65-75: build, run, read the detectors. *)
Definition simulate (c : fdtd_cfg) (obj : option eps_slice) (wavelength : R) : res (list R * list R) :=
  let! g := init_fdtd c obj wavelength in
  let! g := run_int (f_niter c) g in
  get_detector_values g.

(** spec 43-88: one wavelength; returns (T, R) and whether a warning about too
    few time steps is logged. *)
Definition one_wavelength (c : fdtd_cfg) (wavelength : R) (slice : eps_slice)
  : res (pyfloat * pyfloat) :=
  let! _ := recommended_timesteps c wavelength slice in
  let! free := simulate c None wavelength in
  let! mat := simulate c (Some slice) wavelength in
  calculate_coefficients (window_size (f_min_gp c) wavelength)
                         (fst free) (fst mat) (snd free) (snd mat).

(** The loop of spec 41-90; the lists (T, R) in order. *)
Fixpoint spectra (c : fdtd_cfg) (wls : list R) (i : nat) (eps : list eps_slice)
  : res (list pyfloat * list pyfloat) :=
  match wls with
  | [] => Ok ([], [])
  | wl :: r =>
    let! slice := get eps i in
    let! tr := one_wavelength c wl slice in
    let! rest := spectra c r (S i) eps in
    Ok (fst tr :: fst rest, snd tr :: snd rest)
  end.

(** * Reading and writing the config *)

(** [cfg.key = value] *)
Fixpoint cfg_set (c : config) (k : string) (v : pyval) : config :=
  match c with
  | [] => [(k, v)]
  | (k', v') :: r => if String.eqb k k' then (k', v) :: r else (k', v') :: cfg_set r k v
  end.

Definition finite (f : pyfloat) : res R :=
  match f with Fin r => Ok r | _ => Err OverflowError end.
Definition get_real (c : config) (k : string) : res R :=
  let! v := getitem c k in let! f := to_num v in finite f.
Definition get_int (c : config) (k : string) : res Z :=
  let! v := getitem c k in
  match v with VInt z => Ok z | VBool b => Ok (if b then 1 else 0)%Z | _ => Err TypeError end.
Definition get_str (c : config) (k : string) : res string :=
  let! v := getitem c k in match v with VStr s => Ok s | _ => Err TypeError end.
Definition real_item (v : pyval) : res R := let! f := to_num v in finite f.
Definition get_reals (c : config) (k : string) : res (list R) :=
  let! v := getitem c k in
  match v with VList l => map_res real_item l | _ => Err TypeError end.

Definition get_item (c : config) (k : string) (i : nat) : res R :=
  let! v := getitem c k in let! x := py_index v i in real_item x.

(** The attribute reads of init and spec, gathered. *)
Definition read_fdtd (c : config) : res fdtd_cfg :=
  let! s := get_real c "FDTD_grid_scaling" in
  let! p := get_real c "FDTD_pml_thickness" in
  let! f := get_real c "FDTD_free_space_distance" in
  let! T := get_reals c "PER_LAYER_THICKNESS" in
  let! d := get_int c "FDTD_gridpoints_from_material_to_detector" in
  let! sx := get_item c "FDTD_source_position" 0 in
  let! sy := get_item c "FDTD_source_position" 1 in
  let! pulse := get_str c "FDTD_pulse_type" in
  let! source := get_str c "FDTD_source_type" in
  let! n := get_int c "FDTD_niter" in
  let! m := get_int c "FDTD_min_gridpoints_per_unit_magnitude" in
  Ok (mkFcfg s p f T d sx sy pulse source n (Z.to_nat m)).

(** trcwa/get_frequency_points.py 6-29 on the config: stores
    [target_frequencies] and returns the physical wavelengths. *)
Definition frequency_points (c : config) : res (config * list R) :=
  let! w0 := get_item c "physical_wavelength_range" 0 in
  let! w1 := get_item c "physical_wavelength_range" 1 in
  let! n := get_int c "N_freq" in
  let! d := get_str c "freq_distribution" in
  let! fp := get_frequency_points w0 w1 (Z.to_nat n) d in
  Ok (cfg_set c "target_frequencies" (VList (map (fun f => VFloat (Fin f)) (snd fp))), fst fp).

(** spec 35-36: a one-entry thickness list is repeated for every layer
    ([list * n] is empty for n <= 0, but n > 1 here). *)
Definition spread_thickness (c : config) : res config :=
  let! v := getitem c "PER_LAYER_THICKNESS" in
  let! n := get_int c "N_layers" in
  match v with
  | VList l =>
      Ok (if Nat.eqb (length l) 1 && (1 <? n)%Z
          then cfg_set c "PER_LAYER_THICKNESS" (VList (concat (repeat l (Z.to_nat n)))) else c)
  | _ => Err TypeError
  end.

(** compute_fdtd_grid_scaling.py 6-23; spec 38 stores it.  (torch.maximum of
    finite numbers.) *)
Definition grid_scaling (c : config) : res R :=
  let! w0 := get_item c "physical_wavelength_range" 0 in
  let! m := get_int c "FDTD_min_gridpoints_per_unit_magnitude" in
  if Reqb (w0 * (1 / 10)) 0 then Err ZeroDivisionError else
  Ok (Rmax (UNIT_MAGNITUDE / (w0 * (1 / 10))) (IZR m)).

(** spec 28-38: what is stored in the config before the loop, and the
    wavelengths to simulate. *)
Definition prepare_fdtd (c : config) : res (config * list R) :=
  let! cw := frequency_points c in
  let! c1 := spread_thickness (fst cw) in
  let! s := grid_scaling c1 in
  Ok (cfg_set c1 "FDTD_grid_scaling" (VFloat (Fin s)), snd cw).

(** spec 18-95 [compute_spectrum_fdtd]: (reflection, transmission) and the
    config it leaves behind. *)
Definition compute_spectrum_fdtd (eps : list eps_slice) (c : config)
  : res (list pyfloat * list pyfloat * config) :=
  let! cw := prepare_fdtd c in
  let! f := read_fdtd (fst cw) in
  let! tr := spectra f (snd cw) 0 eps in
  Ok (snd tr, fst tr, fst cw).
