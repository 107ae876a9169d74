(** The config validator, nidn/utils/validate_config.py, check by check. *)
From Coq Require Import Reals ZArith String List Bool.
From Verif Require Import Base PyVal.
Import ListNotations.
Open Scope string_scope.
Open Scope R_scope.

(** validate_config.py:48-55 *)
Definition required_keys : list string :=
  ["name";"seed";"eps_oversampling";"real_min_eps";"real_max_eps";"imag_min_eps";"imag_max_eps";
   "Nx";"Ny";"N_layers";"physical_wavelength_range";"N_freq";"model_type";"encoding_dim";"siren_omega";
   "n_neurons";"hidden_layers";"learning_rate";"iterations";"L";"absorption_loss";"type";"use_regularization_loss";
   "reg_loss_weight";"add_noise";"noise_scale";"solver";"PER_LAYER_THICKNESS";
   "TRCWA_L_grid";"TRCWA_NG";"TRCWA_TOP_LAYER_EPS";"TRCWA_BOTTOM_LAYER_EPS";
   "FDTD_min_gridpoints_per_unit_magnitude";"FDTD_source_type";"FDTD_pulse_type";"FDTD_pml_thickness";
   "FDTD_source_position";"FDTD_free_space_distance";"FDTD_niter";"FDTD_gridpoints_from_material_to_detector";
   "target_reflectance_spectrum";"target_transmittance_spectrum";"freq_distribution";"use_gpu";"avoid_zero_eps"].
(** validate_config.py:58-59 *)
Definition optional_keys : list string :=
  ["target_frequencies";"FDTD_grid";"model";"out_features";"results";"best_model_state_dict";"material_collection";
   "N_materials";"thicknesses";"FDTD_grid_scaling"].

(** validate_config.py:45-67 [_check_for_keys] *)
Definition check_for_keys (c : config) : res unit :=
  let! _ := for_each required_keys (fun k => ensure (has_key c k) KeyError) in
  for_each (map fst c)
    (fun k => if negb (in_strings k required_keys) && negb (in_strings k optional_keys)
              then Err KeyError else Ok tt).

(** validate_config.py:73-80 *)
Definition integer_keys :=
  ["Nx";"Ny";"N_layers";"N_freq";"encoding_dim";"n_neurons";"eps_oversampling";"seed";
   "TRCWA_NG";"FDTD_niter";"FDTD_gridpoints_from_material_to_detector";"FDTD_min_gridpoints_per_unit_magnitude"].
Definition float_keys :=
  ["L";"real_min_eps";"real_max_eps";"imag_min_eps";"imag_max_eps";"siren_omega";"noise_scale";"reg_loss_weight";
   "TRCWA_TOP_LAYER_EPS";"TRCWA_BOTTOM_LAYER_EPS";"FDTD_free_space_distance";"FDTD_pml_thickness"].
Definition boolean_keys := ["use_regularization_loss";"add_noise";"use_gpu";"avoid_zero_eps"].
Definition string_keys :=
  ["model_type";"type";"name";"freq_distribution";"solver";"FDTD_source_type";"FDTD_pulse_type"].
Definition list_keys :=
  ["PER_LAYER_THICKNESS";"TRCWA_L_grid";"FDTD_source_position";"target_reflectance_spectrum";
   "target_transmittance_spectrum";"physical_wavelength_range"].

(** [isinstance(v, int)] etc.; Python's bool is a subclass of int. *)
Definition is_int v := match v with VInt _ | VBool _ => true | _ => false end.
Definition is_float v := match v with VFloat _ => true | _ => false end.
Definition is_bool v := match v with VBool _ => true | _ => false end.
Definition is_str v := match v with VStr _ => true | _ => false end.
Definition is_list v := match v with VList _ => true | _ => false end.

Definition check_type (c : config) (p : pyval -> bool) (k : string) : res unit :=
  let! v := getitem c k in ensure (p v) TypeError.

(** validate_config.py:70-101 [_check_entry_types] *)
Definition check_entry_types (c : config) : res unit :=
  let! _ := for_each integer_keys (check_type c is_int) in
  let! _ := for_each float_keys (check_type c is_float) in
  let! _ := for_each boolean_keys (check_type c is_bool) in
  let! _ := for_each string_keys (check_type c is_str) in
  for_each list_keys (check_type c is_list).

(** validate_config.py:107-111 *)
Definition check_min_max (c : config) (kmin kmax : string) : res unit :=
  let! a := getitem c kmin in
  let! b := getitem c kmax in
  let! r := py_le_num a b in
  ensure r RuntimeError.

(** validate_config.py:113-116 *)
Definition check_wl_order (c : config) : res unit :=
  let! w := getitem c "physical_wavelength_range" in
  let! w0 := py_index w 0 in
  let! w1 := py_index w 1 in
  let! r := py_lt w0 w1 in
  ensure r RuntimeError.

(** validate_config.py:118-121 (and 28-32): the number of grid points per unit
    magnitude.  [FDTD_GRID_SCALE = 0.1] is fdtd_integration/constants.py:1,
    [UNIT_MAGNITUDE = 10**(-6)] is utils/global_constants.py:14. *)
Definition fdtd_scaling (c : config) : res pyfloat :=
  let! w := getitem c "physical_wavelength_range" in
  let! w0 := py_index w 0 in
  let! x0 := to_num w0 in
  let! q := fdiv (Fin (/ 1000000)) (fmul x0 (Fin (1 / 10))) in
  let! m := getitem c "FDTD_min_gridpoints_per_unit_magnitude" in
  let! m := to_num m in
  Ok (py_max q m).

(** validate_config.py:118-130 *)
Definition check_detector (c : config) : res unit :=
  let! s := fdtd_scaling c in
  let! d := getitem c "FDTD_free_space_distance" in
  let! d := to_num d in
  let! n := fint (fmul s d) in
  let! g := getitem c "FDTD_gridpoints_from_material_to_detector" in
  let! less := py_lt (VInt n) g in
  ensure (negb less) RuntimeError.

(** validate_config.py:133-135 *)
Definition positive_value_keys :=
  ["L";"n_neurons";"Nx";"Ny";"N_layers";"N_freq";"learning_rate";"iterations";"eps_oversampling";"noise_scale";
   "TRCWA_NG";"reg_loss_weight";"FDTD_niter";"FDTD_free_space_distance";"FDTD_pml_thickness";
   "FDTD_gridpoints_from_material_to_detector";"FDTD_min_gridpoints_per_unit_magnitude"].
(** validate_config.py:138-140: [cfg[key] > 0], i.e. [0 < cfg[key]] *)
Definition check_positive (c : config) (k : string) : res unit :=
  let! v := getitem c k in
  let! r := py_lt (VInt 0) v in
  ensure r RuntimeError.

(** The integer behind an int or bool. *)
Definition int_of (v : pyval) : res Z :=
  match v with
  | VInt z => Ok z
  | VBool b => Ok (if b then 1 else 0)%Z
  | _ => Err TypeError
  end.
(** validate_config.py:142-145: [cfg.Nx % cfg.eps_oversampling == 0] *)
Definition check_multiple (c : config) (k : string) : res unit :=
  let! n := getitem c k in
  let! o := getitem c "eps_oversampling" in
  let! n := int_of n in
  let! o := int_of o in
  let! r := if Z.eqb o 0 then Err ZeroDivisionError else Ok (Z.modulo n o) in
  ensure (Z.eqb r 0) RuntimeError.

(** [cfg[k] in choices] for string choices, lines 147, 192, 199, 202. *)
Definition check_choice (c : config) (k : string) (choices : list string) : res unit :=
  let! v := getitem c k in
  ensure (existsb (fun s => py_eqb v (VStr s)) choices) RuntimeError.

(** validate_config.py:150-153 *)
Definition check_lattice (c : config) : res unit :=
  let! g := getitem c "TRCWA_L_grid" in
  let! r1 := py_index g 1 in
  let! a := py_index r1 0 in
  let! b := py_index r1 1 in
  let! ok1 := py_lt a b in
  let! _ := ensure ok1 RuntimeError in
  let! r0 := py_index g 0 in
  let! a := py_index r0 0 in
  let! b := py_index r0 1 in
  let! ok0 := py_lt b a in
  ensure ok0 RuntimeError.

(** validate_config.py:155-160 *)
Definition all_positive_list_keys :=
  ["TRCWA_L_grid";"PER_LAYER_THICKNESS";"FDTD_grid";"FDTD_source_position"].
(** validate_config.py:161-164 *)
Definition all_positive_or_zero_list_keys :=
  ["target_transmittance_spectrum";"target_reflectance_spectrum"].
(** validate_config.py:166-168: [key in cfg.keys() and not (all(cfg[key]) > 0.0)] *)
Definition check_all_positive (c : config) (k : string) : res unit :=
  if has_key c k then
    let! v := getitem c k in
    let! b := py_all v in
    let! r := py_lt (VFloat (Fin 0)) (VBool b) in
    ensure r RuntimeError
  else Ok tt.
(** validate_config.py:169-173: [not (all(cfg[key]) >= 0.0)] *)
Definition check_all_nonneg (c : config) (k : string) : res unit :=
  let! v := getitem c k in
  let! b := py_all v in
  let! r := py_le_num (VFloat (Fin 0)) (VBool b) in
  ensure r RuntimeError.

(** validate_config.py:186-190: [len(..) == cfg.N_layers or len(..) == 1] *)
Definition check_thickness_len (c : config) : res unit :=
  let! v := getitem c "PER_LAYER_THICKNESS" in
  let! n := py_len v in
  let! nl := getitem c "N_layers" in
  ensure (py_eqb (VInt (Z.of_nat n)) nl || Nat.eqb n 1) RuntimeError.

(** validate_config.py:195-198 *)
Definition check_source_len (c : config) : res unit :=
  let! v := getitem c "FDTD_source_position" in
  let! n := py_len v in
  ensure (Nat.eqb n 2 || Nat.eqb n 3) RuntimeError.

(** validate_config.py:104-205 [_check_value_ranges] *)
Definition check_value_ranges (c : config) : res unit :=
  let! _ := check_min_max c "real_min_eps" "real_max_eps" in
  let! _ := check_min_max c "imag_min_eps" "imag_max_eps" in
  let! _ := check_wl_order c in
  let! _ := check_detector c in
  let! _ := for_each positive_value_keys (check_positive c) in
  let! _ := check_multiple c "Nx" in
  let! _ := check_multiple c "Ny" in
  let! _ := check_choice c "type" ["classification";"regression"] in
  let! _ := check_lattice c in
  let! _ := for_each all_positive_list_keys (check_all_positive c) in
  let! _ := for_each all_positive_or_zero_list_keys (check_all_nonneg c) in
  let! _ := check_thickness_len c in
  let! _ := check_choice c "freq_distribution" ["linear";"log"] in
  let! _ := check_source_len c in
  let! _ := check_choice c "FDTD_source_type" ["point";"line"] in
  check_choice c "FDTD_pulse_type" ["ricker";"hanning";"continuous"].

(** validate_config.py:22-42 [_check_grid_scale]: only warns.  The result lists,
    per layer, the thickness the warning announces ([None]: no warning).
    Simplification: the comparison [thickness != size / scaling] is done on
    numbers (a non-number has already raised TypeError at line 35). *)
Definition grid_scale_layer (scaling pml free : pyfloat) (t : pyval) : res (option pyfloat) :=
  let! th := to_num t in
  let x_start := fadd pml free in
  let x_end := fadd x_start th in
  let! i1 := fint (fmul scaling x_end) in
  let! i0 := fint (fmul scaling x_start) in
  let! down := fdiv (Fin (IZR (i1 - i0))) scaling in
  Ok (if feq th down then None else Some down).

Fixpoint map_res {A B} (f : A -> res B) (l : list A) : res (list B) :=
  match l with
  | [] => Ok []
  | x :: r => let! y := f x in let! ys := map_res f r in Ok (y :: ys)
  end.

Definition check_grid_scale (c : config) : res (list (option pyfloat)) :=
  let! s := fdtd_scaling c in
  let! ts := getitem c "PER_LAYER_THICKNESS" in
  let! pml := getitem c "FDTD_pml_thickness" in
  let! pml := to_num pml in
  let! free := getitem c "FDTD_free_space_distance" in
  let! free := to_num free in
  match ts with
  | VList l => map_res (grid_scale_layer s pml free) l
  | _ => Err TypeError
  end.

(** validate_config.py:8-19 [_validate_config]; returns the warnings. *)
Definition validate_config (c : config) : res (list (option pyfloat)) :=
  let! _ := check_for_keys c in
  let! _ := check_entry_types c in
  let! _ := check_value_ranges c in
  let! s := getitem c "solver" in
  if py_eqb s (VStr "FDTD") then check_grid_scale c else Ok [].
