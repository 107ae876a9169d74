From Coq Require Import Reals ZArith String List Bool Lra Lia.
From Verif Require Import Base BaseLemmas PyVal Spec_Config Model_Config Model_Units Model_Coeffs Model_FDTD Model_Register Spec_FDTD Spec_Register
  Model_Layout Spec_Layout Proof_Spectrum Proof_Spectrum2 Proof_Spectrum3 Proof_Layout Proof_Layout2 Proof_Vacuum Spec_Wave Proof_Wave Proof_Wave2.
Import ListNotations.
Open Scope R_scope.

Lemma ten_cells c w T w0 w1 p sx sy : validate_config c = Ok w -> fdtd_numbers c T w0 w1 p sx sy ->
  exists c' wls f, prepare_fdtd c = Ok (c', wls) /\ read_fdtd c' = Ok f
    /\ forall wl, In wl wls -> 10 <= wl / (UNIT_MAGNITUDE / f_scaling f).
Proof.
  intros V Nu. destruct (prepared_valid c w T w0 w1 p sx sy V Nu) as (c' & wls & f & N & d & free & P & R & Pr & _ & _ & _ & _ & _ & _ & _ & W & (m & _ & S) & _).
  exists c', wls, f. split; [exact P|]. split; [exact R|]. intros wl I. destruct (W wl I) as [[L _] _]. destruct Nu as [_ (v0 & v1 & rest & _ & _ & _ & P0) _ _].
  pose proof (pr_scaling f Pr) as SP. assert (SM : / 1000000 / (w0 / 10) <= f_scaling f) by (rewrite S; apply Rmax_l).
  assert (UM : UNIT_MAGNITUDE = / 1000000) by (unfold UNIT_MAGNITUDE; lra). rewrite UM.
  replace (wl / (/ 1000000 / f_scaling f)) with (wl * (1000000 * f_scaling f)) by (field; lra).
  assert (10 / w0 <= 1000000 * f_scaling f) by (replace (10 / w0) with (1000000 * (/ 1000000 / (w0 / 10))) by (field; lra); lra).
  apply Rle_trans with (wl * (10 / w0)); [|apply Rmult_le_compat_l; lra].
  replace 10 with (w0 * (10 / w0)) at 1 by (field; lra). apply Rmult_le_compat_r; [|exact L]. left. apply Rdiv_lt_0_compat; lra.
Qed.

(** a wave along x, its electric field along z, on a grid of 101 cells *)
Definition along_x (k : R) : axis -> R := fun b => match b with AX => k | _ => 0 end.
Definition along_z : axis -> R := fun b => match b with AZ => 1 | _ => 0 end.

Lemma run_ok n : forall g, g_boundaries g = [] -> g_sources g = [] -> g_detectors g = [] -> exists g', run_steps n g = Ok g'.
Proof.
  induction n as [|n IH]; intros g B S D; cbn [run_steps]; [exists g; reflexivity|].
  unfold step, update_E. rewrite B, S, D. cbn [map_res fold_left fold_res bind]. unfold update_H.
  cbn [with_fields g_boundaries g_sources g_detectors map_res fold_left fold_res bind]. rewrite S. cbn [fold_res map_res bind]. apply IH; [reflexivity|exact S|reflexivity].
Qed.

Lemma wave_case : exists g0 w, make_grid [PInt 101; PInt 1; PInt 1] (/ 10 ^ 7) 1 1 None = Ok g0 /\ 0 < g_courant g0
  /\ let k := along_x (2 * PI / 20) in
     let h := fun c => g_courant g0 / (1 * sin (w / 2)) * cross (grid_vector k) along_z c in
     let g := with_fields g0 (E_wave k w 0 along_z 0) (H_wave k w 0 h 0) 0 [] [] in
     bare g 1 1 /\ sin (w / 2) <> 0 /\ dot (grid_vector k) along_z = 0
     /\ sin (w / 2) ^ 2 = g_courant g ^ 2 / (1 * 1) * dot (grid_vector k) (grid_vector k)
     /\ (exists g', run_steps 40 g = Ok g') /\ deep k (g_N g) 40 (50, 0, 0)%nat.
Proof.
  assert (HD : forall sp z, handle_distance sp (PInt z) = z) by reflexivity.
  destruct (make_grid [PInt 101; PInt 1; PInt 1] (/ 10 ^ 7) 1 1 None) as [g0|] eqn:G; [|exfalso; unfold make_grid in G; cbn in G; discriminate].
  assert (G' := G). unfold make_grid in G'. cbn in G'. injection G' as G'.
  assert (HC : 0 < g_courant g0) by (rewrite <- G'; cbn; rewrite sqrt_1; lra).
  destruct (speed [PInt 101; PInt 1; PInt 1] (/ 10 ^ 7) 1 1 None g0 20 G) as (w & W & D & _); try lra.
  destruct (make_grid_facts _ _ _ _ _ _ G) as (_ & _ & _ & (B1 & B2 & B3 & B4 & B5) & Dt).
  exists g0, w. split; [reflexivity|]. split; [exact HC|]. intros k h g.
  assert (SN : 0 < sin (w / 2)) by (apply sin_gt_0; pose proof PI_RGT_0; lra).
  split; [repeat split; assumption|]. split; [lra|]. split; [|split; [|split]].
  - unfold dot, sum3, grid_vector, k, along_x, along_z. replace (0 / 2) with 0 by field. rewrite sin_0. ring.
  - rewrite D. unfold g. cbn [with_fields g_courant]. unfold dot, sum3, grid_vector, k, along_x. replace (0 / 2) with 0 by field. rewrite sin_0.
    rewrite Rmult_1_r, sqrt_1. replace (2 * PI / 20 / 2) with (PI / 20) by field. field.
  - apply run_ok; [reflexivity|exact B2|reflexivity].
  - unfold g. cbn [with_fields g_N]. rewrite <- G'. cbn [g_N]. split.
    + intros []; cbn; lia.
    + intros []; cbn; [right; lia|left; reflexivity|left; reflexivity].
Qed.
