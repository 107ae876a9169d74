(** What a valid config is, in words of the documentation
    (nidn/utils/resources/default_config.toml), independent of the validator. *)
From Coq Require Import Reals ZArith String List Bool.
From Verif Require Import Base PyVal.
Import ListNotations.
Open Scope string_scope.
Open Scope R_scope.

(** [c[k]] is [v]. *)
Definition entry (c : config) (k : string) (v : pyval) : Prop := lookup c k = Some v.

Inductive kind := KInt | KFloat | KBool | KStr | KList | KAny.

(** The default config file, in file order, with the Python type of each
    value.  [KAny]: the validator promises nothing about the type. *)
Definition default_config_entries : list (string * kind) :=
  [("name",KStr);("use_gpu",KBool);("seed",KInt);("model_type",KStr);("iterations",KAny);
   ("learning_rate",KAny);("type",KStr);("reg_loss_weight",KFloat);("use_regularization_loss",KBool);
   ("L",KFloat);("absorption_loss",KAny);
   ("n_neurons",KInt);("hidden_layers",KAny);("encoding_dim",KInt);("siren_omega",KFloat);
   ("add_noise",KBool);("noise_scale",KFloat);("eps_oversampling",KInt);
   ("real_min_eps",KFloat);("real_max_eps",KFloat);("imag_min_eps",KFloat);("imag_max_eps",KFloat);
   ("solver",KStr);("Nx",KInt);("Ny",KInt);("N_layers",KInt);("PER_LAYER_THICKNESS",KList);
   ("TRCWA_L_grid",KList);("TRCWA_NG",KInt);("TRCWA_TOP_LAYER_EPS",KFloat);("TRCWA_BOTTOM_LAYER_EPS",KFloat);
   ("FDTD_source_type",KStr);("FDTD_pulse_type",KStr);("FDTD_pml_thickness",KFloat);
   ("FDTD_source_position",KList);("FDTD_free_space_distance",KFloat);("FDTD_niter",KInt);
   ("FDTD_gridpoints_from_material_to_detector",KInt);("FDTD_min_gridpoints_per_unit_magnitude",KInt);
   ("avoid_zero_eps",KBool);("target_reflectance_spectrum",KList);("target_transmittance_spectrum",KList);
   ("physical_wavelength_range",KList);("freq_distribution",KStr);("N_freq",KInt)].

(** Keys other parts of NIDN store into the config while running. *)
Definition runtime_keys : list string :=
  ["target_frequencies";"FDTD_grid";"FDTD_grid_scaling";"model";"out_features";"results";
   "best_model_state_dict";"material_collection";"N_materials";"thicknesses"].

Definition has_kind (v : pyval) (k : kind) : Prop :=
  match k with
  | KInt => (exists z, v = VInt z) \/ (exists b, v = VBool b)
  | KFloat => exists f, v = VFloat f
  | KBool => exists b, v = VBool b
  | KStr => exists s, v = VStr s
  | KList => exists l, v = VList l
  | KAny => True
  end.

Definition keys_complete (c : config) : Prop :=
  forall k kd, In (k, kd) default_config_entries -> exists v, entry c k v.
Definition keys_known (c : config) : Prop :=
  forall k v, In (k, v) c ->
    (exists kd, In (k, kd) default_config_entries) \/ In k runtime_keys.
Definition well_typed (c : config) : Prop :=
  forall k kd, In (k, kd) default_config_entries ->
    exists v, entry c k v /\ has_kind v kd.

(** Order on Python floats, as a relation. *)
Inductive f_lt : pyfloat -> pyfloat -> Prop :=
| lt_fin x y : x < y -> f_lt (Fin x) (Fin y)
| lt_fin_inf x : f_lt (Fin x) PInf
| lt_inf_fin y : f_lt NInf (Fin y)
| lt_inf_inf : f_lt NInf PInf.
Definition f_le a b := f_lt a b \/ (a = b /\ a <> NaN).

(** The keys documented as strictly positive. *)
Definition positive_keys : list string :=
  ["iterations";"learning_rate";"reg_loss_weight";"L";"n_neurons";"noise_scale";"eps_oversampling";
   "Nx";"Ny";"N_layers";"N_freq";"TRCWA_NG";"FDTD_pml_thickness";"FDTD_free_space_distance";"FDTD_niter";
   "FDTD_gridpoints_from_material_to_detector";"FDTD_min_gridpoints_per_unit_magnitude"].

(** Grid points per micrometre used by the FDTD solver: ten per shortest
    wavelength, at least [m]. *)
Definition gridpoints_per_um (x0 : pyfloat) (m : R) : R :=
  match x0 with
  | Fin w => Rmax (/ 1000000 / (w / 10)) m
  | _ => Rmax 0 m
  end.

Definition one_of (c : config) (k : string) (choices : list string) : Prop :=
  exists s, entry c k (VStr s) /\ In s choices.

Definition no_falsy (c : config) (k : string) : Prop :=
  forall v, entry c k v ->
    (exists s, v = VStr s) \/
    (exists l, v = VList l /\ forall x, In x l -> truthy x = true).

Record ranges_ok (c : config) : Prop := {
  ro_real : exists a b, entry c "real_min_eps" (VFloat a) /\ entry c "real_max_eps" (VFloat b) /\ f_le a b;
  ro_imag : exists a b, entry c "imag_min_eps" (VFloat a) /\ entry c "imag_max_eps" (VFloat b) /\ f_le a b;
  (** wavelengths increasing, first one not zero, and the reflection detector
      fits into the free space in front of the object *)
  ro_wl : exists v0 v1 rest x0 x1 vm m d vg g,
      entry c "physical_wavelength_range" (VList (v0 :: v1 :: rest)) /\
      num_of v0 = Some x0 /\ num_of v1 = Some x1 /\ f_lt x0 x1 /\ x0 <> Fin 0 /\
      entry c "FDTD_min_gridpoints_per_unit_magnitude" vm /\ num_of vm = Some (Fin m) /\
      entry c "FDTD_free_space_distance" (VFloat (Fin d)) /\
      entry c "FDTD_gridpoints_from_material_to_detector" vg /\ num_of vg = Some (Fin (IZR g)) /\
      IZR g <= gridpoints_per_um x0 m * d;
  ro_pos : forall k, In k positive_keys ->
      exists v x, entry c k v /\ num_of v = Some x /\ f_lt (Fin 0) x;
  ro_nx : exists vn vo n o q, entry c "Nx" vn /\ entry c "eps_oversampling" vo /\
      num_of vn = Some (Fin (IZR n)) /\ num_of vo = Some (Fin (IZR o)) /\ (n = q * o)%Z;
  ro_ny : exists vn vo n o q, entry c "Ny" vn /\ entry c "eps_oversampling" vo /\
      num_of vn = Some (Fin (IZR n)) /\ num_of vo = Some (Fin (IZR o)) /\ (n = q * o)%Z;
  ro_type : one_of c "type" ["classification";"regression"];
  (** lattice vectors: first row descending, second row ascending *)
  ro_lattice : exists r0 r1 rest a0 a1 b0 b1,
      entry c "TRCWA_L_grid" (VList (r0 :: r1 :: rest)) /\
      py_index r0 0 = Ok a0 /\ py_index r0 1 = Ok a1 /\ py_lt a1 a0 = Ok true /\
      py_index r1 0 = Ok b0 /\ py_index r1 1 = Ok b1 /\ py_lt b0 b1 = Ok true;
  ro_lists : forall k, In k ["TRCWA_L_grid";"PER_LAYER_THICKNESS";"FDTD_grid";"FDTD_source_position"] ->
      no_falsy c k;
  ro_len : exists l vn n, entry c "PER_LAYER_THICKNESS" (VList l) /\
      entry c "N_layers" vn /\ num_of vn = Some (Fin (IZR n)) /\
      (Z.of_nat (length l) = n \/ length l = 1%nat);
  ro_dist : one_of c "freq_distribution" ["linear";"log"];
  ro_srclen : exists l, entry c "FDTD_source_position" (VList l) /\ (length l = 2 \/ length l = 3)%nat;
  ro_src : one_of c "FDTD_source_type" ["point";"line"];
  ro_pulse : one_of c "FDTD_pulse_type" ["ricker";"hanning";"continuous"]
}.

(** [c] with the value of an existing key replaced. *)
Definition replace (c : config) (k : string) (v : pyval) : config :=
  map (fun kv => if String.eqb k (fst kv) then (fst kv, v) else kv) c.

(** The shipped default config (default_config.toml), as loaded by toml. *)
Definition fl (r : R) : pyval := VFloat (Fin r).
Definition default_config : config :=
  [("name",VStr "example_name");("use_gpu",VBool false);("seed",VInt 100);("model_type",VStr "siren");
   ("iterations",VInt 3000);("learning_rate",fl (8/100000));("type",VStr "regression");
   ("reg_loss_weight",fl (5/100));("use_regularization_loss",VBool true);
   ("L",fl 1);("absorption_loss",VBool false);
   ("n_neurons",VInt 100);("hidden_layers",VInt 9);("encoding_dim",VInt 4);("siren_omega",fl 1);
   ("add_noise",VBool false);("noise_scale",fl (1/1000));("eps_oversampling",VInt 1);
   ("real_min_eps",fl (-100));("real_max_eps",fl 100);("imag_min_eps",fl 0);("imag_max_eps",fl 3);
   ("solver",VStr "TRCWA");("Nx",VInt 1);("Ny",VInt 1);("N_layers",VInt 8);("PER_LAYER_THICKNESS",VList [fl 1]);
   ("TRCWA_L_grid",VList [VList [fl (1/10); fl 0]; VList [fl 0; fl (1/10)]]);("TRCWA_NG",VInt 11);
   ("TRCWA_TOP_LAYER_EPS",fl 1);("TRCWA_BOTTOM_LAYER_EPS",fl 1);
   ("FDTD_source_type",VStr "line");("FDTD_pulse_type",VStr "continuous");("FDTD_pml_thickness",fl (3/2));
   ("FDTD_source_position",VList [fl (3/2); fl 1]);("FDTD_free_space_distance",fl 1);("FDTD_niter",VInt 200);
   ("FDTD_gridpoints_from_material_to_detector",VInt 2);("FDTD_min_gridpoints_per_unit_magnitude",VInt 10);
   ("avoid_zero_eps",VBool true);
   ("target_reflectance_spectrum",VList (repeat (fl 0) 10 ++ repeat (fl 1) 10));
   ("target_transmittance_spectrum",VList (repeat (fl 0) 20));
   ("physical_wavelength_range",VList [fl (1/1000000); fl (30/1000000)]);
   ("freq_distribution",VStr "linear");("N_freq",VInt 20)].
