(** The start of a training run: nidn/training/run_training.py 20-68
    [_init_training] ("run"), and the first evaluation of the model.

    Simplifications: the GPU switch, the optimizer and the log messages are
    dropped (the optimizer is part of Model_Training.v); what the config holds
    besides plain values, i.e. the model and the materials, is kept beside it; the
    changes made before an exception is raised are not recorded; the random
    numbers after [fix_random_seeds] are an argument; infinities and NaN in the
    entries read here are refused with OverflowError. *)
From Coq Require Import Reals ZArith String List Bool.
From Verif Require Import Base Cplx PyVal Model_Config Model_Materials Model_EpsGrid Model_Units Model_Layout Model_Networks.
Import ListNotations.
Open Scope R_scope.
Open Scope string_scope.

(** A run config: the plain entries, the model (None: absent or None) and the
    materials. *)
Record run := mkRun { r_cfg : config; r_model : option model; r_materials : option collection }.

Definition get_nat (c : config) (k : string) : res nat := let! z := get_int c k in Ok (Z.to_nat z).

(** init_network.py 18-52: the entries read there.  [range(hidden_layers)] needs an
    integer. *)
Definition read_net (c : config) : res net_cfg :=
  let! mt := get_str c "model_type" in
  let! ty := get_str c "type" in
  let! enc := get_int c "encoding_dim" in
  let! out := get_int c "out_features" in
  let! n := get_int c "n_neurons" in
  let! h := if String.eqb mt "nerf" || String.eqb mt "siren" then get_int c "hidden_layers" else Ok 0%Z in
  let! om := get_real c "siren_omega" in
  let! nx := get_nat c "Nx" in let! ny := get_nat c "Ny" in
  let! nl := get_nat c "N_layers" in let! nf := get_nat c "N_freq" in
  let! rmin := get_real c "real_min_eps" in let! rmax := get_real c "real_max_eps" in
  let! imin := get_real c "imag_min_eps" in let! imax := get_real c "imag_max_eps" in
  Ok (mkNetCfg mt ty enc out n h om nx ny nl nf rmin rmax imin imax).

(** run 46-53: the materials and the number of outputs *)
Definition set_outputs (files : list mfile) (c : config) (old : option collection) : res (config * option collection) :=
  let! t := getitem c "type" in
  if py_eqb t (VStr "classification") then
    let! fs := get_reals c "target_frequencies" in
    let! mc := MaterialCollection files fs [] in
    let n := VInt (Z.of_nat (length (material_names mc))) in
    let c := cfg_set c "material_collection" (VObj true) in
    let c := cfg_set c "N_materials" n in
    Ok (cfg_set c "out_features" n, Some mc)
  else Ok (cfg_set c "out_features" (VInt 2), old).

(** run 58-60 *)
Definition set_model (d : draws) (c : config) (old : option model) : res (config * model) :=
  match old with
  | Some m => Ok (c, m)
  | None =>
      let! nc := read_net c in
      let! m := init_network d nc in
      Ok (cfg_set c "model" (VObj true), m)
  end.

(** run 20-68 [_init_training] *)
Definition init_training (d : draws) (files : list mfile) (r : run) : res run :=
  let! _ := validate_config (r_cfg r) in
  let! f := frequency_points (r_cfg r) in
  let! o := set_outputs files (fst f) (r_materials r) in
  let! m := set_model d (fst o) (r_model r) in
  Ok (mkRun (fst m) (Some (snd m)) (snd o)).

(** model_to_eps_grid.py 30-284: the entries read there *)
Definition read_eps (c : config) (mats : option collection) : res eps_cfg :=
  let! ty := get_str c "type" in
  let! mt := get_str c "model_type" in
  let! nx := get_nat c "Nx" in let! ny := get_nat c "Ny" in
  let! os := get_nat c "eps_oversampling" in
  let! nl := get_nat c "N_layers" in let! nf := get_nat c "N_freq" in
  let! nm := if String.eqb ty "classification" then get_nat c "N_materials" else Ok 0%nat in
  let! fs := get_reals c "target_frequencies" in
  let! fd := get_str c "freq_distribution" in
  let! th := get_reals c "PER_LAYER_THICKNESS" in
  let! rmin := get_real c "real_min_eps" in let! rmax := get_real c "real_max_eps" in
  let! imin := get_real c "imag_min_eps" in let! imax := get_real c "imag_max_eps" in
  let! az := getitem c "avoid_zero_eps" in
  let! an := getitem c "add_noise" in
  let! ns := get_real c "noise_scale" in
  let! m := if String.eqb ty "classification"
            then match mats with Some mc => Ok (epsilon_matrix mc) | None => Err AttributeError end
            else Ok (T1 []) in
  Ok {| e_type := ty; e_model_type := mt; e_Nx := nx; e_Ny := ny; e_os := os; e_N_layers := nl; e_N_freq := nf;
        e_N_materials := nm; e_target_frequencies := fs; e_freq_distribution := fd; e_thickness := th;
        e_rmin := rmin; e_rmax := rmax; e_imin := imin; e_imax := imax;
        e_avoid_zero := truthy az; e_add_noise := truthy an; e_noise_scale := ns; e_epsilon_matrix := m |}.

(** run 106: [model_to_eps_grid(run_cfg.model, run_cfg)] *)
Definition grid_of_run (r : run) (nre nim noise : nat -> nat -> nat -> nat -> R)
    : res (option (grid4 C * option (grid4 R))) :=
  match r_model r with
  | None => Err TypeError
  | Some m =>
      let! cfg := read_eps (r_cfg r) (r_materials r) in
      let! net := with_model cfg m in
      model_to_eps_grid cfg net nre nim noise
  end.
