(** Property theorems C63: starting (and restarting) a training run.  [settings],
    [holds], [start_keys], [trainable], [good_files] and [retype] are defined in
    Spec_Start.v, [shape4] in Spec_EpsGrid.v. *)
From Coq Require Import Reals ZArith String List Bool Lra Lia.
From Verif Require Import Base Cplx PyVal Model_Config Spec_Config Proof_Config Model_Materials Model_EpsGrid Spec_EpsGrid
  Model_Units Model_Layout Model_Networks Spec_Networks Model_Start Spec_Start Proof_Start Proof_Start2 Props_EpsGrid.
Import ListNotations.
Open Scope R_scope.
Open Scope string_scope.

(** An invalid config is refused as the validator refuses it. *)
Theorem C63_invalid : forall d files r e,
  validate_config (r_cfg r) = Err e -> init_training d files r = Err e.
Proof. exact start_invalid. Qed.
Print Assumptions C63_invalid.
(** Nothing the user set is changed, and the config stays valid. *)
Theorem C63_user : forall d files r r',
  init_training d files r = Ok r' ->
  validate_config (r_cfg r') = validate_config (r_cfg r)
  /\ forall k, ~ In k start_keys -> lookup (r_cfg r') k = lookup (r_cfg r) k.
Proof. exact start_user. Qed.
Print Assumptions C63_user.
(** What is added: the frequencies, ... *)
Theorem C63_frequencies : forall d files r r',
  init_training d files r = Ok r' ->
  exists fs w0 w1 n dist, lookup (r_cfg r') "target_frequencies" = Some (VList (map (fun f => VFloat (Fin f)) fs))
    /\ get_item (r_cfg r) "physical_wavelength_range" 0 = Ok w0 /\ get_item (r_cfg r) "physical_wavelength_range" 1 = Ok w1
    /\ get_int (r_cfg r) "N_freq" = Ok n /\ get_str (r_cfg r) "freq_distribution" = Ok dist
    /\ compute_target_frequencies w0 w1 (Z.to_nat n) dist = Ok fs.
Proof. exact start_frequencies. Qed.
Print Assumptions C63_frequencies.
(** ... the number of outputs, one per material or two, ... *)
Theorem C63_outputs : forall d files r r',
  init_training d files r = Ok r' ->
  (entry (r_cfg r) "type" (VStr "classification") ->
     exists fs mc, get_reals (r_cfg r') "target_frequencies" = Ok fs /\ MaterialCollection files fs [] = Ok mc
       /\ r_materials r' = Some mc
       /\ entry (r_cfg r') "N_materials" (VInt (Z.of_nat (length (material_names mc))))
       /\ entry (r_cfg r') "out_features" (VInt (Z.of_nat (length (material_names mc)))))
  /\ (~ entry (r_cfg r) "type" (VStr "classification") -> r_materials r' = r_materials r /\ entry (r_cfg r') "out_features" (VInt 2)).
Proof. exact start_outputs. Qed.
Print Assumptions C63_outputs.
(** ... and the model: the one already there, or a new one made for these outputs. *)
Theorem C63_model : forall d files r r',
  init_training d files r = Ok r' ->
  match r_model r with
  | Some m => r_model r' = Some m
  | None => exists nc m, read_net (r_cfg r') = Ok nc /\ init_network d nc = Ok m /\ r_model r' = Some m
  end.
Proof. exact start_model. Qed.
Print Assumptions C63_model.
(** Starting again changes nothing, whatever the random numbers. *)
Theorem C63_restart : forall d d' files r r',
  init_training d files r = Ok r' -> init_training d' files r' = Ok r'.
Proof. exact restart. Qed.
Print Assumptions C63_restart.
(** With trainable settings a valid config can be started ... *)
Theorem C63_starts : forall d files c w s,
  validate_config c = Ok w -> holds c s -> trainable s ->
  t_type s = "regression" \/ t_type s = "classification" /\ good_files files /\ (2 <= t_Nf s)%Z ->
  exists r', init_training d files (mkRun c None None) = Ok r'.
Proof. exact (fun d files c w s V H T S => start_runs d files c w s V H S T). Qed.
Print Assumptions C63_starts.
(** ... and the first grid has the right shape. *)
Theorem C63_regression : forall d files c w s r' nre nim noise,
  validate_config c = Ok w -> holds c s -> t_type s = "regression" -> trainable s ->
  init_training d files (mkRun c None None) = Ok r' ->
  exists g, grid_of_run r' nre nim noise = Ok (Some (g, None))
    /\ shape4 g (Z.to_nat (t_Nx s)) (Z.to_nat (t_Ny s)) (Z.to_nat (t_Nl s)) (Z.to_nat (t_Nf s)).
Proof. exact (fun d files c w s r' nre nim noise V H => first_regression d files c w s V H r' nre nim noise). Qed.
Print Assumptions C63_regression.
Theorem C63_classification : forall d files c w s r' nre nim noise,
  validate_config c = Ok w -> holds c s -> t_type s = "classification" ->
  good_files files -> (2 <= t_Nf s)%Z -> trainable s ->
  init_training d files (mkRun c None None) = Ok r' ->
  exists g ids, grid_of_run r' nre nim noise = Ok (Some (g, Some ids))
    /\ shape4 g (Z.to_nat (t_Nx s)) (Z.to_nat (t_Ny s)) (Z.to_nat (t_Nl s)) (Z.to_nat (t_Nf s))
    /\ shape4 ids (Z.to_nat (t_Nx s)) (Z.to_nat (t_Ny s)) (Z.to_nat (t_Nl s)) (length files)
    /\ forall x y l, (x < Z.to_nat (t_Nx s))%nat -> (y < Z.to_nat (t_Ny s))%nat -> (l < Z.to_nat (t_Nl s))%nat ->
         Rsum (nth l (nth y (nth x ids []) []) []) = 1.
Proof. exact (fun d files c w s r' nre nim noise V H => first_classification d files c w s V H r' nre nim noise). Qed.
Print Assumptions C63_classification.
Theorem C63_voxel : forall d files c w s,
  validate_config c = Ok w -> holds c s -> t_type s = "regression" -> t_model s = "voxel" ->
  exists r', init_training d files (mkRun c None None) = Ok r'
    /\ forall nre nim noise, exists g, grid_of_run r' nre nim noise = Ok (Some (g, None))
    /\ shape4 g (Z.to_nat (t_Nx s)) (Z.to_nat (t_Ny s)) (Z.to_nat (t_Nl s)) (Z.to_nat (t_Nf s)).
Proof. exact (fun d files c w s V H => first_voxel d files c w s V H). Qed.
Print Assumptions C63_voxel.
(** Valid configs that cannot be started or evaluated. *)
Theorem C63_omega : forall d files c w s,
  validate_config c = Ok w -> holds c s ->
  t_type s = "regression" -> t_model s = "siren" -> t_enc s = 4%Z -> t_omega s <= 0 ->
  init_training d files (mkRun c None None) = Err RuntimeError.
Proof. exact (fun d files c w s V H => start_omega d files c w s V H). Qed.
Print Assumptions C63_omega.
Theorem C63_encoding : forall d files c w s r' nre nim noise,
  validate_config c = Ok w -> holds c s ->
  t_type s = "regression" -> (forall x, In x (t_thickness s) -> 0 < x) ->
  (t_model s = "siren" /\ t_enc s <> 4%Z) \/ (t_model s = "nerf" /\ (t_enc s <> 4%Z \/ t_h s = 3%Z \/ t_h s = 4%Z)) ->
  init_training d files (mkRun c None None) = Ok r' ->
  grid_of_run r' nre nim noise = Err RuntimeError.
Proof. exact (fun d files c w s r' nre nim noise V H => start_encoding d files c w s V H r' nre nim noise). Qed.
Print Assumptions C63_encoding.
(** Changing the type of a started run and starting it again keeps the model of
    the old type, and no grid can be computed (a new run with the same settings is
    fine, C63_classification). *)
Theorem C63_stale_model : forall d d' files c w s r1 nre nim noise,
  validate_config c = Ok w -> holds c s -> trainable s -> t_type s = "regression" ->
  init_training d files (mkRun c None None) = Ok r1 ->
  good_files files -> (2 <= t_Nf s)%Z -> length files <> 2%nat ->
  exists r2, init_training d' files (mkRun (cfg_set (r_cfg r1) "type" (VStr "classification")) (r_model r1) (r_materials r1)) = Ok r2
    /\ r_model r2 = r_model r1 /\ grid_of_run r2 nre nim noise = Err RuntimeError.
Proof.
  exact (fun d d' files c w s r1 nre nim noise V H T Ty E G N => stale_model d d' files c w s r1 V H T Ty E G N nre nim noise).
Qed.
Print Assumptions C63_stale_model.

(** The default config is such a run. *)
Definition default_settings : settings :=
  mkSettings "regression" "siren" 4 100 9 1 1 1 1 8 20 (1 / 1000000) (30 / 1000000) "linear" [1] (-100) 100 0 3 (1 / 1000).
Example C63_default : holds default_config default_settings /\ trainable default_settings /\ (2 <= t_Nf default_settings)%Z.
Proof.
  split; [|split; [|cbn; lia]].
  - split; try reflexivity; try (eexists; split; reflexivity).
    + do 3 eexists. split; [reflexivity|]. split; reflexivity.
    + eexists. split; [reflexivity|]. repeat constructor.
  - split; [reflexivity|]. split; [intros x [<-|[]]; lra|]. left. split; [reflexivity|cbn; lra].
Qed.
(** Three materials. *)
Definition three_files : list mfile :=
  [("a", [{| Wavelength := 1; n_ := 1; k_ := 0 |}]); ("b", [{| Wavelength := 1; n_ := 2; k_ := 0 |}; {| Wavelength := 2; n_ := 2; k_ := 0 |}]); ("c", [{| Wavelength := 1; n_ := 3; k_ := 0 |}])].
Example C63_files : good_files three_files /\ length three_files <> 2%nat.
Proof. split; [split; [cbn; lia|]|cbn; lia]. intros f [<-|[<-|[<-|[]]]]; discriminate. Qed.
Example C63_default_starts d : exists r1 g, init_training d three_files (mkRun default_config None None) = Ok r1
  /\ grid_of_run r1 (fun _ _ _ _ => 0) (fun _ _ _ _ => 0) (fun _ _ _ _ => 0) = Ok (Some (g, None)) /\ shape4 g 1 1 8 20.
Proof.
  destruct C63_default as [H [T _]].
  destruct (C63_starts d three_files _ _ _ default_accepted H T (or_introl eq_refl)) as [r1 E].
  destruct (C63_regression d three_files _ _ _ r1 (fun _ _ _ _ => 0) (fun _ _ _ _ => 0) (fun _ _ _ _ => 0) default_accepted H eq_refl T E) as [g [G S]].
  exists r1, g. auto.
Qed.
(** The default config with type classification is valid too. *)
Example C63_default_classification :
  validate_config (cfg_set default_config "type" (VStr "classification")) = Ok []
  /\ holds (cfg_set default_config "type" (VStr "classification")) (retype default_settings "classification")
  /\ trainable (retype default_settings "classification").
Proof.
  destruct C63_default as [H [T _]]. split; [|split; [exact (holds_retype _ _ _ H)|exact T]].
  rewrite (validate_retype default_config "regression" "classification"); [exact default_accepted|reflexivity|cbn; tauto|cbn; tauto].
Qed.
