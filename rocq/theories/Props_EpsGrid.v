(** Property theorems C12-C17. *)
From Coq Require Import Reals ZArith String List Bool Lra Lia.
From Verif Require Import Base BaseLemmas Cplx CplxLemmas Model_Materials Model_EpsGrid Spec_EpsGrid Proof_EpsGrid.
Import ListNotations.
Open Scope R_scope.

(** C12: on one value, and on every entry of a tensor. *)
Theorem C12_avoid_zero_value : forall c r,
  0 < c ->
  Rabs (avoid_zero1 c r) >= c /\
  (Rabs r >= c -> avoid_zero1 c r = r) /\
  (r < 0 -> avoid_zero1 c r < 0) /\ (0 <= r -> 0 < avoid_zero1 c r) /\
  Rabs (avoid_zero1 c r - r) <= c /\
  avoid_zero1 c (avoid_zero1 c r) = avoid_zero1 c r.
Proof. exact avoid_zero1_spec. Qed.
Print Assumptions C12_avoid_zero_value.
Theorem C12_avoid_zero_grid : forall c (g : grid4 C) a b n m,
  0 < c -> shape4 g a b n m ->
  shape4 (avoid_zero_eps c g) a b n m /\
  (forall x y l f, (x < a)%nat -> (y < b)%nat -> (l < n)%nat -> (f < m)%nat ->
    let r := at4 g C0 x y l f in let r' := at4 (avoid_zero_eps c g) C0 x y l f in
    Rabs (Re r') >= c /\ Im r' = Im r /\ (Rabs (Re r) >= c -> r' = r) /\
    (Re r < 0 -> Re r' < 0) /\ (0 <= Re r -> 0 < Re r') /\ Rabs (Re r' - Re r) <= c) /\
  avoid_zero_eps c (avoid_zero_eps c g) = avoid_zero_eps c g.
Proof. exact avoid_zero_grid. Qed.
Print Assumptions C12_avoid_zero_grid.
(** The regression path applies it ... *)
Theorem C12_regression_away_from_zero : forall cfg net nre nim g,
  regression_grid cfg net nre nim = Ok g -> e_avoid_zero cfg = true -> e_add_noise cfg = false ->
  e_model_type cfg <> "voxel"%string -> forall e, entry4 g e -> / 100 <= Rabs (Re e).
Proof. exact regression_avoid_zero. Qed.
Print Assumptions C12_regression_away_from_zero.
(** ... but only before the noise and never for voxel models: with avoid_zero_eps = True a real
    part can still be exactly 0. *)
Theorem C12_noise_refuted : exists cfg net nre nim g e,
  e_avoid_zero cfg = true /\ ranges_ok cfg /\ regression_grid cfg net nre nim = Ok g /\ entry4 g e /\ Re e = 0.
Proof. exact noise_breaks_avoid_zero. Qed.
Print Assumptions C12_noise_refuted.
Theorem C12_voxel_refuted : exists cfg net nre nim g e,
  e_avoid_zero cfg = true /\ e_add_noise cfg = false /\ ranges_ok cfg /\
  regression_grid cfg net nre nim = Ok g /\ entry4 g e /\ Re e = 0.
Proof. exact voxel_ignores_avoid_zero. Qed.
Print Assumptions C12_voxel_refuted.
Example C12_case : avoid_zero1 (/100) (- / 200) = - / 100 /\ avoid_zero1 (/100) 0 = / 100.
Proof.
  split; [destruct (avoid_zero1_cases (/100) (-/200)) as [[H E]|[[H E]|[H E]]]
         |destruct (avoid_zero1_cases (/100) 0) as [[H E]|[[H E]|[H E]]]]; try lra;
  exfalso; revert H; unfold Rabs; destruct (Rcase_abs _); lra.
Qed.

(** C13: ranges for every entry, network and noise draw. *)
Theorem C13_regression_range : forall cfg net nre nim g,
  ranges_ok cfg ->
  regression_grid cfg net nre nim = Ok g ->
  forall e, entry4 g e ->
   e_imin cfg <= Im e <= e_imax cfg /\
   (e_avoid_zero cfg = false \/ e_add_noise cfg = true \/ e_model_type cfg = "voxel"%string ->
      e_rmin cfg <= Re e <= e_rmax cfg) /\
   (e_rmin cfg <= Re e <= e_rmax cfg \/ Re e = / 100 \/ Re e = - / 100).
Proof. exact regression_range. Qed.
Print Assumptions C13_regression_range.
(** Noise is applied to each part with its own draw and range. *)
Theorem C13_noise : forall cfg net nre nim g a b c d,
  e_add_noise cfg = true ->
  regression_grid (quiet cfg) net nre nim = Ok g -> shape4 g a b c d ->
  exists g', regression_grid cfg net nre nim = Ok g' /\ shape4 g' a b c d
  /\ forall x y l f, (x < a)%nat -> (y < b)%nat -> (l < c)%nat -> (f < d)%nat ->
     let e := at4 g C0 x y l f in
     at4 g' C0 x y l f =
      (Rmin (Rmax (Re e + (2 * nre x y l f - 1) * e_noise_scale cfg * (e_rmax cfg - e_rmin cfg)) (e_rmin cfg)) (e_rmax cfg),
       Rmin (Rmax (Im e + (2 * nim x y l f - 1) * e_noise_scale cfg * (e_imax cfg - e_imin cfg)) (e_imin cfg)) (e_imax cfg)).
Proof. exact regression_noise. Qed.
Print Assumptions C13_noise.
Theorem C13_real_affine : forall cfg o,
  ranges_ok cfg -> e_avoid_zero cfg = false -> 0 <= o <= 1 ->
  real_of cfg o = e_rmin cfg + o * (e_rmax cfg - e_rmin cfg).
Proof. exact real_of_affine. Qed.
Print Assumptions C13_real_affine.
Theorem C13_imag_upper : forall cfg o,
  ranges_ok cfg -> 0 <= o <= 1 ->
  imag_of cfg o <= Rmax (e_imin cfg) (e_imax cfg - e_imin cfg).
Proof. exact imag_of_unreachable. Qed.
Print Assumptions C13_imag_upper.
Theorem C13_imag_max_reached_refuted : exists cfg, ranges_ok cfg /\ e_imin cfg < e_imax cfg /\
  forall o, 0 <= o <= 1 -> imag_of cfg o < e_imax cfg.
Proof. exact imag_max_unreachable. Qed.
Print Assumptions C13_imag_max_reached_refuted.
Example C13_case : ranges_ok (wcfg "siren" 2 1 2 0 1 false false).
Proof. split; simpl; lra. Qed.

(** C14 *)
Theorem C14_shape : forall cfg net nre nim rows,
  os_ok cfg ->
  eval_model cfg net = Ok (Rows rows) -> rows_ok cfg 2 rows ->
  exists g, regression_grid cfg net nre nim = Ok g
  /\ shape4 g (e_Nx cfg) (e_Ny cfg) (e_N_layers cfg) (e_N_freq cfg).
Proof. exact regression_shape. Qed.
Print Assumptions C14_shape.
Theorem C14_blocks : forall cfg net nre nim rows,
  os_ok cfg -> e_add_noise cfg = false ->
  eval_model cfg net = Ok (Rows rows) -> rows_ok cfg 2 rows ->
  exists g, regression_grid cfg net nre nim = Ok g
  /\ shape4 g (e_Nx cfg) (e_Ny cfg) (e_N_layers cfg) (e_N_freq cfg) /\ forall x y x' y' l f, (x < e_Nx cfg)%nat -> (y < e_Ny cfg)%nat -> (x' < e_Nx cfg)%nat -> (y' < e_Ny cfg)%nat ->
   (l < e_N_layers cfg)%nat -> (f < e_N_freq cfg)%nat ->
   (x / e_os cfg = x' / e_os cfg)%nat -> (y / e_os cfg = y' / e_os cfg)%nat ->
   at4 g C0 x y l f = at4 g C0 x' y' l f.
Proof. exact regression_blocks. Qed.
Print Assumptions C14_blocks.
Theorem C14_bad_oversampling : forall cfg net nre nim rows,
  eval_model cfg net = Ok (Rows rows) -> (0 < e_os cfg)%nat ->
  (e_Nx cfg mod e_os cfg <> 0 \/ e_Ny cfg mod e_os cfg <> 0)%nat ->
  regression_grid cfg net nre nim = Err RuntimeError.
Proof. exact regression_bad_oversampling. Qed.
Print Assumptions C14_bad_oversampling.
Theorem C14_bad_output_count : forall cfg net nre nim rows,
  eval_model cfg net = Ok (Rows rows) ->
  length (concat rows) <> ((e_Nx cfg / e_os cfg) * (e_Ny cfg / e_os cfg) * e_N_layers cfg * (2 * e_N_freq cfg))%nat ->
  regression_grid cfg net nre nim = Err RuntimeError.
Proof. exact regression_bad_count. Qed.
Print Assumptions C14_bad_output_count.
(** Every undersampled cell is represented. *)
Theorem C14_every_block : forall cfg, os_ok cfg -> forall i, (i < e_Nx cfg / e_os cfg)%nat ->
  exists x, (x < e_Nx cfg)%nat /\ (x / e_os cfg = i)%nat.
Proof. exact every_block. Qed.
Print Assumptions C14_every_block.
Example C14_case : os_ok {| e_type := "regression"; e_model_type := "siren"; e_Nx := 6; e_Ny := 4; e_os := 2;
  e_N_layers := 3; e_N_freq := 5; e_N_materials := 0; e_target_frequencies := repeat 1 5;
  e_freq_distribution := "linear"; e_thickness := [1]; e_rmin := 1; e_rmax := 2; e_imin := 0; e_imax := 1;
  e_avoid_zero := false; e_add_noise := false; e_noise_scale := 0; e_epsilon_matrix := T1 [] |}.
Proof. repeat split; simpl; auto. Qed.

(** C15: which network output feeds which entry. *)
Theorem C15_channels : forall cfg net nre nim rows,
  os_ok cfg -> e_add_noise cfg = false ->
  eval_model cfg net = Ok (Rows rows) -> rows_ok cfg 2 rows ->
  exists g, regression_grid cfg net nre nim = Ok g /\ forall x y l f, (x < e_Nx cfg)%nat -> (y < e_Ny cfg)%nat -> (l < e_N_layers cfg)%nat -> (f < e_N_freq cfg)%nat ->
   at4 g C0 x y l f =
    (real_of cfg (nth (f mod 2) (nth (row_no cfg (x / e_os cfg) (y / e_os cfg) l (f / 2)) rows []) 0),
     imag_of cfg (nth ((e_N_freq cfg + f) mod 2)
        (nth (row_no cfg (x / e_os cfg) (y / e_os cfg) l ((e_N_freq cfg + f) / 2)) rows []) 0)).
Proof. exact regression_channels. Qed.
Print Assumptions C15_channels.
(** With a single frequency this is the documented [real, imag] layout ... *)
Theorem C15_single_frequency : forall cfg net nre nim rows,
  os_ok cfg -> e_add_noise cfg = false -> e_N_freq cfg = 1%nat ->
  eval_model cfg net = Ok (Rows rows) -> rows_ok cfg 2 rows ->
  exists g, regression_grid cfg net nre nim = Ok g /\ forall x y l, (x < e_Nx cfg)%nat -> (y < e_Ny cfg)%nat -> (l < e_N_layers cfg)%nat ->
   at4 g C0 x y l 0 =
    (real_of cfg (nth 0 (nth (row_no cfg (x / e_os cfg) (y / e_os cfg) l 0) rows []) 0),
     imag_of cfg (nth 1 (nth (row_no cfg (x / e_os cfg) (y / e_os cfg) l 0) rows []) 0)).
Proof. exact regression_channels_one. Qed.
Print Assumptions C15_single_frequency.
(** ... with two frequencies it is not. *)
Theorem C15_documented_layout_refuted : exists cfg net nre nim rows g,
  os_ok cfg /\ ranges_ok cfg /\ e_add_noise cfg = false /\ e_avoid_zero cfg = false /\
  eval_model cfg net = Ok (Rows rows) /\ rows_ok cfg 2 rows /\
  regression_grid cfg net nre nim = Ok g /\
  Re (at4 g C0 0 0 0 1) <> real_of cfg (nth 0 (nth (row_no cfg 0 0 0 1) rows []) 0) /\
  Im (at4 g C0 0 0 0 0) <> imag_of cfg (nth 1 (nth (row_no cfg 0 0 0 0) rows []) 0).
Proof. exact documented_channels_refuted. Qed.
Print Assumptions C15_documented_layout_refuted.

(** C16 *)
Theorem C16_inputs : forall cfg net,
  e_model_type cfg = "nerf"%string \/ e_model_type cfg = "siren"%string ->
  e_freq_distribution cfg = "linear"%string \/ e_freq_distribution cfg = "log"%string ->
  (0 < e_N_freq cfg)%nat -> length (e_target_frequencies cfg) = e_N_freq cfg ->
  (0 < e_N_layers cfg)%nat ->
  length (e_thickness cfg) = 1%nat \/ length (e_thickness cfg) = e_N_layers cfg ->
  (forall x, In x (e_thickness cfg) -> 0 < x) ->
  let nxu := (e_Nx cfg / e_os cfg)%nat in let nyu := (e_Ny cfg / e_os cfg)%nat in
  exists inputs, eval_model cfg net = Ok (Rows (net_rows net inputs)) /\
  length inputs = (nxu * nyu * e_N_layers cfg * e_N_freq cfg)%nat /\
  forall i j l k, (i < nxu)%nat -> (j < nyu)%nat -> (l < e_N_layers cfg)%nat -> (k < e_N_freq cfg)%nat ->
    exists fk,
    nth (row_no cfg i j l k) inputs [] = [tick nxu i; tick nyu j; 1000 * ztick (e_N_layers cfg) (e_thickness cfg) l; fk] /\
    (e_freq_distribution cfg = "linear"%string -> fk = 32 * tick (e_N_freq cfg) k) /\
    (e_freq_distribution cfg = "log"%string ->
       forall M, In M (e_target_frequencies cfg) -> (forall g, In g (e_target_frequencies cfg) -> g <= M) ->
       fk = 32 * (2 * (nth k (e_target_frequencies cfg) 0 / M) - 1)).
Proof. exact eval_model_inputs. Qed.
Print Assumptions C16_inputs.
Theorem C16_layers : forall N t,
  (forall x, In x t -> 0 < x) -> length t = 1%nat \/ length t = N ->
  (2 <= N)%nat ->
  ztick N t 0 = -1 /\ ztick N t (N - 1) = 1 /\ (forall i j, (i < j < N)%nat -> ztick N t i < ztick N t j).
Proof. exact ztick_facts. Qed.
Print Assumptions C16_layers.
Theorem C16_equal_thickness : forall N c l,
  0 < c -> (2 <= N)%nat -> (l < N)%nat ->
  ztick N (repeat c N) l = ztick N [c] l.
Proof. exact ztick_equal. Qed.
Print Assumptions C16_equal_thickness.
Theorem C16_log_range : forall f M,
  0 < f -> f <= M -> -32 < 32 * (2 * (f / M) - 1) <= 32.
Proof. exact log_tick_above. Qed.
Print Assumptions C16_log_range.
Theorem C16_dispatch : forall cfg net nre nim noise,
  (e_type cfg = "classification"%string -> forall r, model_to_eps_grid cfg net nre nim noise = Ok r ->
     exists g ids, r = Some (g, Some ids) /\ classification_grid cfg net noise = Ok (g, ids)) /\
  (e_type cfg = "regression"%string -> forall r, model_to_eps_grid cfg net nre nim noise = Ok r ->
     exists g, r = Some (g, None) /\ regression_grid cfg net nre nim = Ok g) /\
  (e_model_type cfg <> "nerf"%string -> e_model_type cfg <> "siren"%string -> e_model_type cfg <> "voxel"%string ->
     e_type cfg = "classification"%string \/ e_type cfg = "regression"%string ->
     model_to_eps_grid cfg net nre nim noise = Err NotImplementedError).
Proof. exact model_dispatch. Qed.
Print Assumptions C16_dispatch.
Definition case_cfg (type : string) (nf : nat) (noise : bool) (m : tens) : eps_cfg :=
 {| e_type := type; e_model_type := "siren"; e_Nx := 6; e_Ny := 4; e_os := 2;
  e_N_layers := 3; e_N_freq := nf; e_N_materials := 2; e_target_frequencies := map (fun k => 1 + INR k) (seq 0 nf);
  e_freq_distribution := "log"; e_thickness := [1; 2; 3]; e_rmin := 1; e_rmax := 2; e_imin := 0; e_imax := 1;
  e_avoid_zero := true; e_add_noise := noise; e_noise_scale := 1/10; e_epsilon_matrix := m |}.
Example C16_inputs_case : let cfg := case_cfg "regression" 2 false (T1 []) in
  (0 < e_N_freq cfg)%nat /\ length (e_target_frequencies cfg) = e_N_freq cfg /\ (0 < e_N_layers cfg)%nat
  /\ length (e_thickness cfg) = e_N_layers cfg /\ (forall x, In x (e_thickness cfg) -> 0 < x).
Proof. cbn. do 4 (split; [lia|]). intros x H. intuition lra. Qed.
Example C16_case : ztick 3 [1; 2; 3] 1 = - (1 / 5).
Proof. unfold ztick, height; simpl. field. Qed.

(** C17 *)
Theorem C17_weights_and_mixture : forall cfg net noise rows mats,
  os_ok cfg ->
  eval_model cfg net = Ok (Rows rows) -> rows_ok cfg (e_N_materials cfg) rows ->
  (0 < e_N_materials cfg)%nat -> (0 < e_N_freq cfg)%nat ->
  e_epsilon_matrix cfg = T2 mats -> length mats = e_N_materials cfg ->
  (forall v, In v mats -> length v = e_N_freq cfg) ->
  exists mix ids,
  classification_grid cfg net noise = Ok (if e_avoid_zero cfg then avoid_zero_eps (/ 100) mix else mix, ids) /\
  shape4 mix (e_Nx cfg) (e_Ny cfg) (e_N_layers cfg) (e_N_freq cfg) /\
  shape4 ids (e_Nx cfg) (e_Ny cfg) (e_N_layers cfg) (e_N_materials cfg) /\
  forall x y l, (x < e_Nx cfg)%nat -> (y < e_Ny cfg)%nat -> (l < e_N_layers cfg)%nat ->
   let o := map (classif_cell cfg rows noise x y l) (seq 0 (e_N_materials cfg)) in
   let w := nth l (nth y (nth x ids []) []) [] in
   (forall m, (m < e_N_materials cfg)%nat -> nth m w 0 = softmax16 o m) /\
   (forall v, In v w -> 0 < v) /\ Rsum w = 1 /\
   (forall m n, (m < e_N_materials cfg)%nat -> (n < e_N_materials cfg)%nat ->
      nth m o 0 < nth n o 0 -> nth m w 0 < nth n w 0) /\
   (forall f, (f < e_N_freq cfg)%nat -> at4 mix C0 x y l f = mix_at w mats f) /\
   (forall f lo hi, (f < e_N_freq cfg)%nat -> (forall v, In v mats -> lo <= Re (nth f v C0) <= hi) ->
      lo <= Re (at4 mix C0 x y l f) <= hi) /\
   (forall f lo hi, (f < e_N_freq cfg)%nat -> (forall v, In v mats -> lo <= Im (nth f v C0) <= hi) ->
      lo <= Im (at4 mix C0 x y l f) <= hi).
Proof. exact classification_T2. Qed.
Print Assumptions C17_weights_and_mixture.
(** With a single target frequency the epsilon matrix has lost an axis (C09): the returned grid has
    one "frequency" per material and does not depend on the network. *)
Theorem C17_single_frequency_defect : forall cfg net noise rows v,
  os_ok cfg ->
  eval_model cfg net = Ok (Rows rows) -> rows_ok cfg (e_N_materials cfg) rows ->
  (0 < e_N_materials cfg)%nat -> (0 < e_N_freq cfg)%nat ->
  e_epsilon_matrix cfg = T1 v ->
  exists mix ids,
  classification_grid cfg net noise = Ok (if e_avoid_zero cfg then avoid_zero_eps (/ 100) mix else mix, ids) /\
  shape4 mix (e_Nx cfg) (e_Ny cfg) (e_N_layers cfg) (length v) /\
  forall x y l j, (x < e_Nx cfg)%nat -> (y < e_Ny cfg)%nat -> (l < e_N_layers cfg)%nat -> (j < length v)%nat ->
   at4 mix C0 x y l j = nth j v C0.
Proof. exact classification_T1. Qed.
Print Assumptions C17_single_frequency_defect.
Theorem C17_softmax : forall o,
  o <> [] ->
  length (softmax_weights o) = length o /\
  (forall m, (m < length o)%nat -> nth m (softmax_weights o) 0 = softmax16 o m) /\
  (forall w, In w (softmax_weights o) -> 0 < w) /\ Rsum (softmax_weights o) = 1.
Proof. exact softmax_spec. Qed.
Print Assumptions C17_softmax.
Definition case_net (k : nat) : network := {| net_rows := map (fun row => repeat (/ 3 + nth 0 row 0 / 100) k); net_voxel := [] |}.
(** A network of [k] outputs on this config: all hypotheses of C12 (regression),
    C13 (noise), C14, C15 and C17 hold. *)
Lemma case_rows type nf noise m k : (0 < nf)%nat ->
  exists rows, eval_model (case_cfg type nf noise m) (case_net k) = Ok (Rows rows) /\ rows_ok (case_cfg type nf noise m) k rows.
Proof.
  intros Hn. destruct (C16_inputs (case_cfg type nf noise m) (case_net k)) as (inputs & E & L & _).
  - right. reflexivity.
  - right. reflexivity.
  - exact Hn.
  - cbn. rewrite map_length, seq_length. reflexivity.
  - cbn. lia.
  - right. reflexivity.
  - cbn. intros x H. intuition lra.
  - exists (net_rows (case_net k) inputs). split; [exact E|]. split.
    + cbn [net_rows case_net]. rewrite map_length. exact L.
    + intros r H. cbn in H. apply in_map_iff in H. destruct H as (x & <- & _). apply repeat_length.
Qed.
Example C14_rows_case : exists rows g, let cfg := case_cfg "regression" 2 false (T1 []) in
  os_ok cfg /\ ranges_ok cfg /\ eval_model cfg (case_net 2) = Ok (Rows rows) /\ rows_ok cfg 2 rows
  /\ regression_grid cfg (case_net 2) (fun _ _ _ _ => 0) (fun _ _ _ _ => 0) = Ok g /\ shape4 g 6 4 3 2.
Proof.
  destruct (case_rows "regression" 2 false (T1 []) 2 ltac:(lia)) as (rows & E & K).
  assert (O : os_ok (case_cfg "regression" 2 false (T1 []))) by (repeat split; cbn; auto; lia).
  destruct (C14_shape _ _ (fun _ _ _ _ => 0) (fun _ _ _ _ => 0) rows O E K) as (g & G & S).
  exists rows, g. cbv zeta. split; [exact O|]. split; [split; cbn; lra|]. auto.
Qed.
Example C15_single_case : exists rows, let cfg := case_cfg "regression" 1 false (T1 []) in
  os_ok cfg /\ e_N_freq cfg = 1%nat /\ eval_model cfg (case_net 2) = Ok (Rows rows) /\ rows_ok cfg 2 rows.
Proof.
  destruct (case_rows "regression" 1 false (T1 []) 2 ltac:(lia)) as (rows & E & K).
  exists rows. cbv zeta. split; [repeat split; cbn; auto; lia|]. auto.
Qed.
Example C17_mixture_case : exists rows, let cfg := case_cfg "classification" 2 false (T2 [[(2, 0); (3, 0)]; [(4, 1); (5, 1)]]) in
  os_ok cfg /\ eval_model cfg (case_net 2) = Ok (Rows rows) /\ rows_ok cfg (e_N_materials cfg) rows
  /\ (0 < e_N_materials cfg)%nat /\ (forall v, In v [[(2, 0); (3, 0)]; [(4, 1); (5, 1)]] -> length v = e_N_freq cfg).
Proof.
  destruct (case_rows "classification" 2 false (T2 [[(2, 0); (3, 0)]; [(4, 1); (5, 1)]]) 2 ltac:(lia)) as (rows & E & K).
  exists rows. cbv zeta. split; [repeat split; cbn; auto; lia|]. split; [exact E|]. split; [exact K|]. split; [cbn; lia|].
  intros v [<-|[<-|[]]]; reflexivity.
Qed.
Example C17_case : softmax16 [1; 1] 0 = 1 / 2.
Proof.
  unfold softmax16; simpl. assert (0 < exp (16 * 1)) by apply exp_pos.
  unfold Rsum; simpl. field. lra.
Qed.
