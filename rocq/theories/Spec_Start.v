(** Vocabulary for C63: the settings of a training run. *)
From Coq Require Import Reals ZArith String List.
From Verif Require Import Base Cplx PyVal Spec_Config Spec_Dispatch Model_Materials Model_Networks Model_Start.
Import ListNotations.
Open Scope R_scope.
Open Scope string_scope.

Record settings := mkSettings {
  t_type : string; t_model : string; t_enc : Z; t_n : Z; t_h : Z; t_omega : R;
  t_Nx : Z; t_Ny : Z; t_os : Z; t_Nl : Z; t_Nf : Z;
  t_w0 : R; t_w1 : R; t_dist : string; t_thickness : list R;
  t_rmin : R; t_rmax : R; t_imin : R; t_imax : R; t_noise : R }.

(** The config has these values. *)
Record holds (c : config) (s : settings) : Prop := {
  h_type : entry c "type" (VStr (t_type s));
  h_model : entry c "model_type" (VStr (t_model s));
  h_enc : entry_num c "encoding_dim" (IZR (t_enc s));
  h_n : entry_num c "n_neurons" (IZR (t_n s));
  h_h : entry c "hidden_layers" (VInt (t_h s));
  h_omega : entry_num c "siren_omega" (t_omega s);
  h_Nx : entry_num c "Nx" (IZR (t_Nx s));
  h_Ny : entry_num c "Ny" (IZR (t_Ny s));
  h_os : entry_num c "eps_oversampling" (IZR (t_os s));
  h_Nl : entry_num c "N_layers" (IZR (t_Nl s));
  h_Nf : entry_num c "N_freq" (IZR (t_Nf s));
  h_wl : exists v0 v1 rest, entry c "physical_wavelength_range" (VList (v0 :: v1 :: rest))
           /\ num_of v0 = Some (Fin (t_w0 s)) /\ num_of v1 = Some (Fin (t_w1 s));
  h_dist : entry c "freq_distribution" (VStr (t_dist s));
  h_thickness : entry_nums c "PER_LAYER_THICKNESS" (t_thickness s);
  h_rmin : entry_num c "real_min_eps" (t_rmin s);
  h_rmax : entry_num c "real_max_eps" (t_rmax s);
  h_imin : entry_num c "imag_min_eps" (t_imin s);
  h_imax : entry_num c "imag_max_eps" (t_imax s);
  h_noise : entry_num c "noise_scale" (t_noise s) }.

(** What starting a run may write. *)
Definition start_keys : list string :=
  ["target_frequencies"; "material_collection"; "N_materials"; "out_features"; "model"].

(** Settings with which a network on coordinates can be trained. *)
Definition trainable (s : settings) : Prop :=
  t_enc s = 4%Z /\ (forall x, In x (t_thickness s) -> 0 < x)
  /\ (t_model s = "siren" /\ 0 < t_omega s \/ t_model s = "nerf" /\ t_h s <> 3%Z /\ t_h s <> 4%Z).

(** Material files for a choice of at least two. *)
Definition good_files (files : list mfile) : Prop :=
  (2 <= length files)%nat /\ forall f, In f files -> snd f <> [].

(** The same settings for another kind of model. *)
Definition retype (s : settings) (ty : string) : settings :=
  mkSettings ty (t_model s) (t_enc s) (t_n s) (t_h s) (t_omega s) (t_Nx s) (t_Ny s) (t_os s) (t_Nl s) (t_Nf s)
    (t_w0 s) (t_w1 s) (t_dist s) (t_thickness s) (t_rmin s) (t_rmax s) (t_imin s) (t_imax s) (t_noise s).
