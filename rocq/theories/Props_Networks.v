(** Property theorems C54: the networks.  [unit_draws], [same_run], [sampling_ok]
    and [works] are defined in Spec_Networks.v, [signal] in
    Spec_Networks2.v, [os_ok], [rows_ok], [shape4] and
    [entry4] in Spec_EpsGrid.v. *)
From Coq Require Import Reals ZArith String List Bool Lra Lia.
From Verif Require Import Base Cplx Model_Materials Model_EpsGrid Spec_EpsGrid Model_Networks Spec_Networks Spec_Networks2 Proof_Networks Proof_Networks2 Proof_Networks3.
Import ListNotations.
Open Scope R_scope.
Open Scope string_scope.

(** SIREN with any number of hidden layers maps rows of encoding_dim numbers to
    rows of out_features numbers between 0 and 1, ... *)
Theorem C54_siren : forall d inz nz hz outz om,
  (0 < inz)%Z -> (0 < nz)%Z -> (0 <= outz)%Z -> 0 < om ->
  exists net, siren_new d inz nz hz outz om om = Ok net
    /\ forall row, length row = Z.to_nat inz ->
         exists out, siren_forward net row = Ok out /\ length out = Z.to_nat outz /\ Forall (fun v => 0 < v < 1) out.
Proof. exact siren_built. Qed.
Print Assumptions C54_siren.
(** ... refuses rows of any other length ... *)
Theorem C54_siren_input : forall d inz nz hz outz om1 om2 net row,
  siren_new d inz nz hz outz om1 om2 = Ok net ->
  length row <> Z.to_nat inz -> siren_forward net row = Err RuntimeError.
Proof. exact siren_wrong_input. Qed.
Print Assumptions C54_siren_input.
(** ... and cannot be built with a frequency that is not positive (which the
    validator accepts). *)
Theorem C54_siren_omega : forall d inz nz hz outz om,
  (0 < inz)%Z -> (0 < nz)%Z -> (0 <= outz)%Z -> om <= 0 ->
  siren_new d inz nz hz outz om om = Err RuntimeError.
Proof. exact siren_omega. Qed.
Print Assumptions C54_siren_omega.
(** Its initial weights. *)
Theorem C54_siren_weights : forall d inz nz hz outz om net,
  unit_draws d ->
  siren_new d inz nz hz outz om om = Ok net ->
  (exists l rest, net = SineLayer l om :: rest /\ forall i j, Rabs (l_w l i j) <= 1 / INR (Z.to_nat inz))
  /\ forall k l, (nth_error net (S k) = Some (SineLayer l om) \/ nth_error net (S k) = Some (LinearLayer l)) ->
       forall i j, Rabs (l_w l i j) <= sqrt (6 / INR (Z.to_nat nz)) / om.
Proof. exact siren_weights. Qed.
Print Assumptions C54_siren_weights.
(** What it computes: first and hidden layers with the sine of omega times the
    weighted inputs plus bias, a linear layer, the sigmoid. *)
Theorem C54_siren_value : forall d inz nz hz outz om1 om2 net,
  siren_new d inz nz hz outz om1 om2 = Ok net ->
  exists first hidden last,
    net = (SineLayer first om1 :: map (fun l => SineLayer l om2) hidden ++ [LinearLayer last; SigmoidLayer])%list
    /\ length hidden = Z.to_nat hz
    /\ l_out first = Z.to_nat nz /\ (forall l, In l hidden -> l_out l = Z.to_nat nz) /\ l_out last = Z.to_nat outz
    /\ forall row out, siren_forward net row = Ok out ->
         out = signal ((first, fun v => sin (om1 * v)) :: map (fun l => (l, fun v => sin (om2 * v))) hidden ++ [(last, sigmoid)])%list row.
Proof. exact siren_value. Qed.
Print Assumptions C54_siren_value.
Example C54_siren_value_case : forall d row, length row = 4%nat ->
  exists net out, siren_new d 4 8 3 2 30 30 = Ok net /\ siren_forward net row = Ok out /\ length out = 2%nat.
Proof.
  intros d row L. destruct (siren_built d 4 8 3 2 30) as (net & E & H); [lia..|lra|].
  destruct (H row L) as (out & Eo & Lo & _). exists net, out. auto.
Qed.
(** ... and NERF: rectified layers, then a layer with the sigmoid; the inputs are
    put behind the output of the fifth layer, if there is one. *)
Theorem C54_nerf_value : forall d inz outz nz hz net,
  nerf_new d inz outz nz hz NERF_SKIP = Ok net ->
  (exists body last, net = (body ++ [(last, sigmoid)])%list /\ length body = S (Z.to_nat hz)
     /\ (forall l, In l body -> snd l = relu /\ l_out (fst l) = Z.to_nat nz) /\ l_out last = Z.to_nat outz)
  /\ forall row out, nerf_forward NERF_SKIP net row = Ok out ->
       out = if (length net <=? 4)%nat then signal net row
             else signal (skipn 5 net) (signal (firstn 5 net) row ++ row)%list.
Proof. exact nerf_value. Qed.
Print Assumptions C54_nerf_value.
(** NERF can always be built, and works unless it has 3 or 4 hidden layers, ... *)
Theorem C54_nerf_built : forall d inz outz nz hz,
  (0 <= inz)%Z -> (0 <= outz)%Z -> (0 < nz)%Z ->
  exists net, nerf_new d inz outz nz hz NERF_SKIP = Ok net.
Proof. exact nerf_built. Qed.
Print Assumptions C54_nerf_built.
Theorem C54_nerf : forall d inz outz nz hz net row,
  (0 < nz)%Z -> nerf_new d inz outz nz hz NERF_SKIP = Ok net ->
  length row = Z.to_nat inz -> hz <> 3%Z -> hz <> 4%Z ->
  exists out, nerf_forward NERF_SKIP net row = Ok out /\ length out = Z.to_nat outz /\ Forall (fun v => 0 < v < 1) out.
Proof. exact nerf_good. Qed.
Print Assumptions C54_nerf.
Theorem C54_nerf_input : forall d inz outz nz hz net row,
  nerf_new d inz outz nz hz NERF_SKIP = Ok net ->
  length row <> Z.to_nat inz -> nerf_forward NERF_SKIP net row = Err RuntimeError.
Proof. exact nerf_wrong_input. Qed.
Print Assumptions C54_nerf_input.
(** ... returns the inputs behind the outputs with 3 ... *)
Theorem C54_nerf_three : forall d inz outz nz net row,
  (0 < nz)%Z -> nerf_new d inz outz nz 3 NERF_SKIP = Ok net ->
  length row = Z.to_nat inz ->
  exists out, nerf_forward NERF_SKIP net row = Ok (out ++ row)%list /\ length out = Z.to_nat outz /\ Forall (fun v => 0 < v < 1) out.
Proof. exact nerf_three. Qed.
Print Assumptions C54_nerf_three.
(** ... and raises with 4. *)
Theorem C54_nerf_four : forall d inz outz nz net row,
  (0 < nz)%Z -> (0 < inz)%Z -> nerf_new d inz outz nz 4 NERF_SKIP = Ok net ->
  nerf_forward NERF_SKIP net row = Err RuntimeError.
Proof. exact nerf_four. Qed.
Print Assumptions C54_nerf_four.
(** Voxel models exist for regression only, and start within the ranges. *)
Theorem C54_voxel : forall d c,
  unit_draws d -> c_model_type c = "voxel" -> c_type c = "regression" ->
  c_rmin c <= c_rmax c -> c_imin c <= c_imax c ->
  exists w, init_network d c = Ok (Voxel w) /\ shape4 w (c_Nx c) (c_Ny c) (c_N_layers c) (c_N_freq c)
    /\ forall e, entry4 w e -> c_rmin c <= Re e <= c_rmax c /\ c_imin c <= Im e <= c_imax c.
Proof. exact voxel_regression. Qed.
Print Assumptions C54_voxel.
Theorem C54_voxel_classification : forall d c,
  c_model_type c = "voxel" -> c_type c <> "regression" ->
  init_network d c = Err AssertionError.
Proof. exact voxel_classification. Qed.
Print Assumptions C54_voxel_classification.
Theorem C54_unknown : forall d c,
  c_model_type c <> "nerf" -> c_model_type c <> "siren" -> c_model_type c <> "voxel" ->
  init_network d c = Err NotImplementedError.
Proof. exact unknown_model. Qed.
Print Assumptions C54_unknown.
(** In model_to_eps_grid: with the working settings the model returns one row of
    out_features numbers between 0 and 1 per sample point (the hypothesis of C14,
    C15 and C17), ... *)
Theorem C54_rows : forall d c cfg,
  same_run c cfg -> sampling_ok cfg -> works c ->
  exists m net rows, init_network d c = Ok m /\ with_model cfg m = Ok net
    /\ eval_model cfg net = Ok (Rows rows)
    /\ rows_ok cfg (Z.to_nat (c_out_features c)) rows
    /\ forall r, In r rows -> Forall (fun v => 0 < v < 1) r.
Proof. exact network_rows. Qed.
Print Assumptions C54_rows.
(** ... so that regression gives a grid of the right shape. *)
Theorem C54_regression : forall d c cfg nre nim,
  same_run c cfg -> sampling_ok cfg -> os_ok cfg -> works c ->
  e_type cfg = "regression" ->
  exists m net g, init_network d c = Ok m /\ with_model cfg m = Ok net /\ regression_grid cfg net nre nim = Ok g
    /\ shape4 g (e_Nx cfg) (e_Ny cfg) (e_N_layers cfg) (e_N_freq cfg).
Proof. exact network_regression. Qed.
Print Assumptions C54_regression.
(** Otherwise it raises. *)
Theorem C54_fails : forall d c cfg m,
  same_run c cfg -> sampling_ok cfg -> (0 < c_n_neurons c)%Z ->
  c_model_type c = "siren" /\ c_encoding_dim c <> 4%Z
  \/ c_model_type c = "nerf" /\ (c_encoding_dim c <> 4%Z \/ c_hidden_layers c = 4%Z) ->
  init_network d c = Ok m -> with_model cfg m = Err RuntimeError.
Proof. exact network_fails. Qed.
Print Assumptions C54_fails.
Theorem C54_three : forall d c cfg nre nim m,
  same_run c cfg -> sampling_ok cfg -> (0 < c_n_neurons c)%Z ->
  c_model_type c = "nerf" -> c_encoding_dim c = 4%Z -> c_hidden_layers c = 3%Z -> e_type cfg = "regression" ->
  init_network d c = Ok m ->
  exists net, with_model cfg m = Ok net /\ regression_grid cfg net nre nim = Err RuntimeError.
Proof. exact network_three. Qed.
Print Assumptions C54_three.

(** The default config (resources/default_config.toml), with 6 x 4 points, 3 layers
    and an oversampling of 2. *)
Definition net_case (model_type type : string) (enc hidden : Z) : net_cfg :=
  mkNetCfg model_type type enc (if String.eqb type "classification" then 7 else 2) 100 hidden 1 6 4 3 5 1 2 0 1.
Definition grid_case (model_type type : string) : eps_cfg :=
  {| e_type := type; e_model_type := model_type; e_Nx := 6; e_Ny := 4; e_os := 2;
     e_N_layers := 3; e_N_freq := 5; e_N_materials := 7; e_target_frequencies := repeat 1 5;
     e_freq_distribution := "linear"; e_thickness := [1]; e_rmin := 1; e_rmax := 2; e_imin := 0; e_imax := 1;
     e_avoid_zero := false; e_add_noise := false; e_noise_scale := 0; e_epsilon_matrix := T1 [] |}.
Example C54_case_run mt ty enc h : same_run (net_case mt ty enc h) (grid_case mt ty).
Proof. unfold same_run, net_case, grid_case. cbn. destruct (String.eqb ty "classification"); auto 20. Qed.
Example C54_case_sampling mt ty : sampling_ok (grid_case mt ty) /\ os_ok (grid_case mt ty).
Proof. unfold sampling_ok, os_ok, grid_case. cbn. repeat split; auto; try lia. intros x [<-|[]]. lra. Qed.
Example C54_case_works : works (net_case "siren" "regression" 4 9) /\ works (net_case "nerf" "classification" 4 9).
Proof.
  unfold works, net_case. cbn. split; (split; [reflexivity|split; [lia|]]).
  - left. split; [reflexivity|lra].
  - right. split; [reflexivity|split; lia].
Qed.
Definition half_draws : draws := mkDraws (fun _ _ _ => / 2) (fun _ _ => / 2) (fun _ _ _ _ => / 2) (fun _ _ _ _ => / 2).
Example C54_case_draws : unit_draws half_draws.
Proof. repeat split; cbn; intros; lra. Qed.
(** The settings of the failures are reachable: the models are built. *)
Example C54_case_fails d : (exists m, init_network d (net_case "siren" "regression" 3 9) = Ok m)
  /\ (exists m, init_network d (net_case "nerf" "regression" 4 4) = Ok m)
  /\ (exists m, init_network d (net_case "nerf" "regression" 4 3) = Ok m).
Proof.
  split; [|split]; unfold init_network.
  - destruct (siren_built d 3 100 9 2 1) as [net [E _]]; try lia; try lra.
    cbn in *. rewrite E. cbn [bind]. eauto.
  - destruct (nerf_built d 4 2 100 4) as [net E]; try lia. cbn [c_model_type net_case String.eqb Ascii.eqb Bool.eqb].
    change (nerf_new _ _ _ _ _ _) with (nerf_new d 4 2 100 4 NERF_SKIP). rewrite E. cbn [bind]. eauto.
  - destruct (nerf_built d 4 2 100 3) as [net E]; try lia. cbn [c_model_type net_case String.eqb Ascii.eqb Bool.eqb].
    change (nerf_new _ _ _ _ _ _) with (nerf_new d 4 2 100 3 NERF_SKIP). rewrite E. cbn [bind]. eauto.
Qed.
