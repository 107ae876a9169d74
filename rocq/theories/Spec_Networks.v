(** Vocabulary for the statements about the networks (C54). *)
From Coq Require Import Reals ZArith String List.
From Verif Require Import Base Cplx Model_EpsGrid Model_Networks.
Import ListNotations.
Open Scope R_scope.
Open Scope string_scope.

(** The random numbers come from torch.rand and the like. *)
Definition unit_draws (d : draws) : Prop :=
  (forall k i j, 0 <= d_weight d k i j < 1) /\ (forall k i, 0 <= d_bias d k i < 1) /\
  (forall x y l f, 0 <= d_re d x y l f < 1) /\ (forall x y l f, 0 <= d_im d x y l f < 1).

(** Both records are read from one run config; two outputs for regression, one
    per material for classification. *)
Definition same_run (c : net_cfg) (cfg : eps_cfg) : Prop :=
  c_model_type c = e_model_type cfg /\ c_type c = e_type cfg
  /\ c_Nx c = e_Nx cfg /\ c_Ny c = e_Ny cfg /\ c_N_layers c = e_N_layers cfg /\ c_N_freq c = e_N_freq cfg
  /\ c_rmin c = e_rmin cfg /\ c_rmax c = e_rmax cfg /\ c_imin c = e_imin cfg /\ c_imax c = e_imax cfg
  /\ c_out_features c = (if String.eqb (e_type cfg) "classification" then Z.of_nat (e_N_materials cfg) else 2%Z).

(** What the grid of sample points needs (the validator checks it, except that
    thicknesses are positive). *)
Definition sampling_ok (cfg : eps_cfg) : Prop :=
  (e_freq_distribution cfg = "linear" \/ e_freq_distribution cfg = "log")
  /\ (0 < e_N_freq cfg)%nat /\ length (e_target_frequencies cfg) = e_N_freq cfg
  /\ (0 < e_N_layers cfg)%nat
  /\ (length (e_thickness cfg) = 1%nat \/ length (e_thickness cfg) = e_N_layers cfg)
  /\ (forall x, In x (e_thickness cfg) -> 0 < x)
  /\ (0 < e_os cfg <= e_Nx cfg)%nat /\ (e_os cfg <= e_Ny cfg)%nat.

(** The settings with which a network on coordinates works. *)
Definition works (c : net_cfg) : Prop :=
  c_encoding_dim c = 4%Z /\ (0 < c_n_neurons c)%Z /\
  (c_model_type c = "siren" /\ 0 < c_siren_omega c
   \/ c_model_type c = "nerf" /\ c_hidden_layers c <> 3%Z /\ c_hidden_layers c <> 4%Z).
