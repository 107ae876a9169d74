(** Where layers, detectors and sources end up. *)
From Coq Require Import Reals ZArith String List Bool Lra Lia Psatz.
From Verif Require Import Base BaseLemmas PyVal Model_Units Model_Coeffs Model_FDTD Model_Register
  Spec_FDTD Spec_Register Model_Layout Spec_Layout Proof_Register Proof_Register2 Proof_Material Proof_Index Proof_Signal.
Import ListNotations.
Open Scope R_scope.

(** ** Arithmetic of columns *)
Lemma Rsum_nonneg l : Forall (fun t => 0 < t) l -> 0 <= Rsum l.
Proof. unfold Rsum. induction 1; cbn; lra. Qed.
Lemma Forall_firstn {A} (P : A -> Prop) n l : Forall P l -> Forall P (firstn n l).
Proof. revert n. induction l; intros [|n] H; cbn; auto. inversion H; subst. constructor; auto. Qed.
Lemma Rsum_firstn_S T i : (i < length T)%nat -> Rsum (firstn (S i) T) = Rsum (firstn i T) + nth i T 0.
Proof.
  revert i. induction T as [|t T IH]; intros i H; cbn in H; [lia|]. destruct i.
  - cbn. lra.
  - change (firstn (S (S i)) (t :: T)) with (t :: firstn (S i) T).
    change (firstn (S i) (t :: T)) with (t :: firstn i T). cbn [Rsum fold_right nth].
    change (fold_right Rplus 0 (firstn (S i) T)) with (Rsum (firstn (S i) T)).
    change (fold_right Rplus 0 (firstn i T)) with (Rsum (firstn i T)). rewrite IH by lia. lra.
Qed.
Lemma Rsum_firstn_le T i : Forall (fun t => 0 < t) T -> Rsum (firstn i T) <= Rsum (firstn (S i) T).
Proof.
  intros H. destruct (Nat.ltb_spec i (length T)).
  - rewrite Rsum_firstn_S by assumption. rewrite Forall_forall in H. specialize (H (nth i T 0) (nth_In _ _ H0)). lra.
  - rewrite !firstn_all2 by lia. lra.
Qed.
Lemma column_le c x y : 0 < f_scaling c -> x <= y -> (column c x <= column c y)%nat.
Proof.
  intros Hs H. unfold column.
  assert (Rfloor (f_scaling c * x) <= Rfloor (f_scaling c * y))%Z by (apply Rfloor_le; nra). lia.
Qed.
Lemma column_Z c x : 0 < f_scaling c -> 0 <= x -> Z.of_nat (column c x) = Rfloor (f_scaling c * x).
Proof. intros Hs Hx. unfold column. apply Z2Nat.id, Rfloor_nonneg. nra. Qed.
Lemma Rfloor_add a b : (Rfloor a + Rfloor b <= Rfloor (a + b))%Z.
Proof.
  destruct (Rfloor_spec a), (Rfloor_spec b), (Rfloor_spec (a + b)).
  assert (IZR (Rfloor a + Rfloor b) < IZR (Rfloor (a + b) + 1)) by (rewrite !plus_IZR; lra).
  apply lt_IZR in H5. lia.
Qed.
Lemma column_add c x y : 0 < f_scaling c -> 0 <= x -> 0 <= y -> (column c x + column c y <= column c (x + y))%nat.
Proof.
  intros Hs Hx Hy. apply Nat2Z.inj_le. rewrite Nat2Z.inj_add, !column_Z by lra.
  rewrite Rmult_plus_distr_l. apply Rfloor_add.
Qed.
Lemma det_le_column c : proper c -> (Z.to_nat (f_det c) <= column c (f_free c))%nat.
Proof.
  intros [Hs Hp Hf _ Hd Hr]. apply Nat2Z.inj_le. rewrite column_Z by lra. rewrite Z2Nat.id by lia.
  rewrite <- (Rfloor_IZR (f_det c)). apply Rfloor_le. exact Hr.
Qed.
Lemma begin_nonneg c i : proper c -> 0 <= f_pml c + f_free c <= layer_begin c i.
Proof.
  intros [Hs Hp Hf Ht _ _]. unfold layer_begin. pose proof (Rsum_nonneg _ (Forall_firstn _ i _ Ht)). lra.
Qed.
Lemma edge_mono c i : proper c -> (edge c i <= edge c (S i))%nat.
Proof.
  intros P. apply column_le; [apply P|]. unfold layer_begin. pose proof (Rsum_firstn_le _ i (pr_thick _ P)). lra.
Qed.
Lemma edge_le c i j : proper c -> (i <= j)%nat -> (edge c i <= edge c j)%nat.
Proof. intros P H. induction H; [lia|]. pose proof (edge_mono c m P). lia. Qed.
Lemma material_end_eq c : material_end c = column c (f_pml c + f_free c + Rsum (f_thick c)).
Proof. unfold material_end, edge, layer_begin. rewrite firstn_all. reflexivity. Qed.
Lemma edge_le_end c i : proper c -> (edge c i <= material_end c)%nat.
Proof.
  intros P. destruct (Nat.leb_spec i (length (f_thick c))); [apply edge_le; assumption|].
  unfold material_end, edge, layer_begin. rewrite !firstn_all2 by lia. lia.
Qed.

Lemma positions c : proper c ->
  (pml_columns c <= reflection_column c)%nat
  /\ (reflection_column c < edge c 0)%nat
  /\ (forall i, edge c i <= edge c (S i))%nat
  /\ (material_end c < transmission_column c)%nat
  /\ (transmission_column c <= columns c - pml_columns c)%nat
  /\ (1 <= f_scaling c * f_pml c -> (transmission_column c < columns c)%nat)
  /\ (IZR (f_det c) + 1 <= f_scaling c * f_free c -> (transmission_column c < columns c - pml_columns c)%nat).
Proof.
  intros P. pose proof (det_le_column c P) as D. pose proof P as [Hs Hp Hf Ht Hd Hr].
  pose proof (Rsum_nonneg _ Ht) as HT.
  assert (E0 : (pml_columns c + column c (f_free c) <= edge c 0)%nat).
  { unfold edge, layer_begin, pml_columns. cbn [firstn Rsum fold_right]. rewrite Rplus_0_r. apply column_add; lra. }
  assert (EN : (material_end c + column c (f_free c) + pml_columns c <= columns c)%nat).
  { rewrite material_end_eq. unfold columns, pml_columns.
    eapply Nat.le_trans; [|apply column_add; lra]. apply Nat.add_le_mono_r. apply column_add; lra. }
  unfold reflection_column, transmission_column.
  assert (K : (1 <= Z.to_nat (f_det c))%nat) by lia.
  split; [lia|]. split; [lia|]. split; [intros; apply edge_mono; exact P|]. split; [lia|]. split; [lia|]. split.
  - intros H. assert (1 <= pml_columns c)%nat; [|lia]. apply Nat2Z.inj_le. unfold pml_columns. rewrite column_Z by lra.
    change (Z.of_nat 1) with 1%Z. rewrite <- (Rfloor_IZR 1). apply Rfloor_le. exact H.
  - intros H. assert (S (Z.to_nat (f_det c)) <= column c (f_free c))%nat; [|lia].
    apply Nat2Z.inj_le. rewrite column_Z by lra. rewrite Nat2Z.inj_succ, Z2Nat.id by lia.
    rewrite <- (Rfloor_IZR (Z.succ (f_det c))). apply Rfloor_le. rewrite succ_IZR. exact H.
Qed.

(** ** The frame *)
Definition named (n : string) (g : grid) : grid :=
  mkGrid (g_N g) (g_spacing g) (g_courant g) (g_time_step g)
         (g_E g) (g_H g) (g_abs g) (g_ie g) (g_im g) (g_steps g)
         (g_sources g) (g_boundaries g) (g_detectors g) (g_objects g) (n :: g_attrs g).

Lemma assign_low p n g : (0 < p)%Z -> has_attr g n = false -> has_attr (named n g) (face_attr AX false) = false ->
  assign [int_slice (Some 0%Z) (Some p); full_slice; full_slice] (CPML (Some n) default_pml_a) g
  = Ok (add_boundary_ (PMLb (make_pml AX false (Z.to_nat p) default_pml_a (g_courant g)))
          (claim_face AX false (named n g))).
Proof.
  intros Hp H1 H2. unfold assign, setitem, int_slice, full_slice.
  cbn [pad_key option_map handle_key handle_distance register]. unfold register_pml. cbn [pml_slice bind].
  unfold claim_name. rewrite H1. cbn [bind low_slice].
  assert ((0 <? p)%Z = true) as -> by (apply Z.ltb_lt; exact Hp).
  unfold place_pml. fold (named n g). rewrite H2. reflexivity.
Qed.
Lemma assign_high p n g : (0 < p)%Z -> has_attr g n = false -> has_attr (named n g) (face_attr AX true) = false ->
  assign [int_slice (Some (- p)%Z) None; full_slice; full_slice] (CPML (Some n) default_pml_a) g
  = Ok (add_boundary_ (PMLb (make_pml AX true (Z.to_nat p) default_pml_a (g_courant g)))
          (claim_face AX true (named n g))).
Proof.
  intros Hp H1 H2. unfold assign, setitem, int_slice, full_slice.
  cbn [pad_key option_map handle_key handle_distance register]. unfold register_pml. cbn [pml_slice bind].
  unfold claim_name. rewrite H1. cbn [bind]. unfold low_slice, high_slice.
  assert ((- p <? 0)%Z = true) as -> by (apply Z.ltb_lt; lia).
  rewrite Z.opp_involutive. unfold place_pml. fold (named n g). rewrite H2.
  destruct (- p)%Z eqn:E; reflexivity || lia.
Qed.
Lemma assign_ybounds n g : has_attr g n = false ->
  has_attr (named n g) (face_attr AY false) = false -> has_attr (named n g) (face_attr AY true) = false ->
  assign [full_slice; KNum (PInt 0); full_slice] (CPeriodic (Some n)) g
  = Ok (add_boundary_ (Periodic AY) (claim_face AY true (claim_face AY false (named n g)))).
Proof.
  intros H1 H2 H3. unfold assign, setitem, full_slice.
  cbn [pad_key option_map handle_key handle_distance register]. unfold register_periodic. cbn [boundary_slice bind].
  unfold claim_name. rewrite H1. cbn [bind at_border]. cbn [Z.eqb orb].
  unfold place_periodic. fold (named n g). rewrite H2, H3. reflexivity.
Qed.
Lemma assign_detector x n g : g_N g AY = 3%nat -> has_attr g n = false ->
  assign [KNum (PInt x); full_slice; KNum (PInt 0)] (CDetector DLine (Some n)) g
  = Ok (add_detector_ (FieldDetector [(x, 0, 0); (x, 1, 0); (x, 2, 0)]%Z [] []) (named n g)).
Proof.
  intros HN H. unfold assign, setitem, full_slice.
  cbn [pad_key option_map handle_key handle_distance register]. unfold register_detector, claim_name. rewrite H.
  rewrite line_across_y by lia. rewrite HN. reflexivity.
Qed.
Lemma assign_line x n s g : g_N g AY = 3%nat -> has_attr g n = false ->
  assign [KNum (PInt x); full_slice; KNum (PInt 0)] (CLine (Some n) s) g
  = Ok (add_source_ (LineSource [(x, 0, 0); (x, 1, 0); (x, 2, 0)]%Z
          (line_profile (s_amplitude s) [(x, 0, 0); (x, 1, 0); (x, 2, 0)]%Z) (source_signal g s)) (named n g)).
Proof.
  intros HN H. unfold assign, setitem, full_slice.
  cbn [pad_key option_map handle_key handle_distance register]. unfold register_line, claim_name. rewrite H.
  rewrite line_across_y by lia. rewrite HN.
  change (map (fun j : nat => (x, Z.of_nat j, 0%Z)) (seq 0 3)) with (y_line x 0 3).
  assert (Reqb (list_max0 (line_distances (y_line x 0 3))) 0 = false) as E.
  { apply Reqb_false. assert (2 <= 3)%nat as K by lia. pose proof (y_line_max x 0 3 K). lra. }
  change (y_line x 0 3) with [(x, 0, 0); (x, 1, 0); (x, 2, 0)]%Z in *. rewrite E. reflexivity.
Qed.
Lemma assign_point x y n s g : has_attr g n = false ->
  assign [KNum (PInt x); KNum (PInt y); KNum (PInt 0)] (CPoint (Some n) s) g
  = Ok (add_source_ (PointSource (x, y, 0%Z) (s_amplitude s) (source_signal g s)) (named n g)).
Proof.
  intros H. unfold assign, setitem. cbn [pad_key option_map handle_key handle_distance register].
  unfold register_point, claim_name. rewrite H. reflexivity.
Qed.

(** The frame as a grid. *)
Definition frame_grid (c : fdtd_cfg) : grid :=
  let s := f_scaling c in
  let N := shape_of (columns c) 3 1 in
  let co := 99 / 100 * / sqrt (INR 2) in
  mkGrid N (UNIT_MAGNITUDE / s) co (co * (UNIT_MAGNITUDE / s) / SPEED_OF_LIGHT)
    zero_field zero_field zero_field (fun _ _ => 1 / 1) (fun _ _ => 1 / 1) 0 []
    [PMLb (make_pml AX false (pml_columns c) default_pml_a co);
     PMLb (make_pml AX true (pml_columns c) default_pml_a co); Periodic AY]
    [FieldDetector (column_cells (transmission_column c)) [] [];
     FieldDetector (column_cells (reflection_column c)) [] []] 0
    ("r_detector" :: "t_detector" :: "_yhigh_boundary" :: "_ylow_boundary" :: "ybounds"
     :: "_xhigh_boundary" :: "pml_xhigh" :: "_xlow_boundary" :: "pml_xlow" :: builtin_attrs)%string.

Lemma frame_ok c : proper c -> 1 <= f_scaling c * f_pml c ->
  (let! g := make_grid [PInt (Rtrunc (f_scaling c * (f_pml c * 2 + f_free c * 2 + Rsum (f_thick c)))); PInt 3; PInt 1]
               (UNIT_MAGNITUDE / f_scaling c) 1 1 None in
   let! g := add_boundaries (Rtrunc (f_pml c * f_scaling c)) g in
   add_detectors (Rtrunc ((f_pml c + f_free c + Rsum (f_thick c)) * f_scaling c + IZR (f_det c)))
                 (Rtrunc ((f_pml c + f_free c) * f_scaling c - IZR (f_det c))) g) = Ok (frame_grid c).
Proof.
  intros P H1. pose proof (positions c P) as (Q1 & Q2 & _ & Q3 & Q4 & Q5 & _). specialize (Q5 H1).
  pose proof P as [Hs Hp Hf Ht Hd Hr]. pose proof (Rsum_nonneg _ Ht) as HT.
  assert (E1 : Rtrunc (f_scaling c * (f_pml c * 2 + f_free c * 2 + Rsum (f_thick c))) = Z.of_nat (columns c)).
  { unfold columns. rewrite column_Z by lra. rewrite Rtrunc_nonneg by nra. f_equal. ring. }
  assert (E2 : Rtrunc (f_pml c * f_scaling c) = Z.of_nat (pml_columns c)).
  { unfold pml_columns. rewrite column_Z by lra. rewrite Rtrunc_nonneg by nra. f_equal. ring. }
  assert (EE : Z.of_nat (edge c 0) = Rfloor (f_scaling c * (f_pml c + f_free c))).
  { unfold edge, layer_begin. cbn [firstn Rsum fold_right]. rewrite Rplus_0_r, column_Z by lra. reflexivity. }
  assert (E3 : Rtrunc ((f_pml c + f_free c + Rsum (f_thick c)) * f_scaling c + IZR (f_det c)) = Z.of_nat (transmission_column c)).
  { unfold transmission_column. rewrite Nat2Z.inj_add, material_end_eq, column_Z, Z2Nat.id by (lra || lia).
    rewrite Rtrunc_nonneg. - rewrite Rfloor_plus_IZR. f_equal. f_equal. ring.
    - assert (0 <= IZR (f_det c)) by (apply IZR_le; lia). nra. }
  assert (ED : (Z.to_nat (f_det c) <= edge c 0)%nat).
  { eapply Nat.le_trans; [apply det_le_column; exact P|]. apply column_le; [lra|].
    unfold layer_begin. cbn. lra. }
  assert (E4 : Rtrunc ((f_pml c + f_free c) * f_scaling c - IZR (f_det c)) = Z.of_nat (reflection_column c)).
  { unfold reflection_column in *. rewrite Nat2Z.inj_sub, Z2Nat.id, EE by lia.
    rewrite Rtrunc_nonneg by nra. unfold Rminus. rewrite <- opp_IZR, Rfloor_plus_IZR, (Rmult_comm (f_pml c + f_free c)). lia. }
  rewrite E1, E2, E3, E4.
  assert (C2 : (2 <= columns c)%nat) by lia.
  assert (C3 : (0 < Z.of_nat (pml_columns c))%Z).
  { unfold pml_columns. rewrite column_Z by lra. change 0%Z with (Z.pred 1). rewrite <- (Rfloor_IZR 1).
    assert (Rfloor 1 <= Rfloor (f_scaling c * f_pml c))%Z by (apply Rfloor_le; exact H1). rewrite Rfloor_IZR in *. lia. }
  unfold make_grid. cbn [handle_distance]. rewrite Nat2Z.id.
  assert (SD : sim_dim (shape_of (columns c) (Z.to_nat 3) (Z.to_nat 1)) = 2%nat).
  { unfold sim_dim. cbn [shape_of]. destruct (Nat.ltb_spec 1 (columns c)); [reflexivity|lia]. }
  rewrite SD. unfold max_courant. cbn [Nat.eqb bind].
  assert ((0 <=? Z.of_nat (columns c))%Z = true) as -> by (apply Z.leb_le; lia). cbn [Z.leb Z.compare andb ensure bind].
  unfold add_boundaries. rewrite assign_low by (reflexivity || exact C3). cbn [bind].
  rewrite assign_high by (reflexivity || exact C3). cbn [bind].
  rewrite assign_ybounds by reflexivity. cbn [bind].
  unfold add_detectors. rewrite assign_detector by reflexivity. cbn [bind].
  rewrite assign_detector by reflexivity. rewrite Nat2Z.id. reflexivity.
Qed.

Lemma init_split c obj wl : proper c -> 1 <= f_scaling c * f_pml c ->
  init_fdtd c obj wl =
  let! g := add_source (Rtrunc (f_src_x c * f_scaling c)) (Rtrunc (f_src_y c * f_scaling c))
                       (wl / SPEED_OF_LIGHT) (f_pulse c) (f_source c) (frame_grid c) in
  match obj with
  | None => Ok g
  | Some slice =>
    let x_start := f_pml c + f_free c in
    let! t0 := get (f_thick c) 0 in
    let! row := get slice 0 in
    let! layers := get row 0 in
    add_layers (f_scaling c) (f_thick c) (SPEED_OF_LIGHT / wl) 0 x_start (x_start + t0) layers g
  end.
Proof.
  intros P H1. pose proof (frame_ok c P H1) as F. unfold init_fdtd.
  apply bind_ok in F as (g1 & F1 & F). rewrite F1. cbn [bind].
  apply bind_ok in F as (g2 & F2 & F). rewrite F2. cbn [bind].
  rewrite F. reflexivity.
Qed.


Definition source_name (c : fdtd_cfg) : string :=
  if String.eqb (f_source c) "point" then "pointsource" else "linesource".

Lemma SPEED_pos : 0 < SPEED_OF_LIGHT.
Proof. unfold SPEED_OF_LIGHT. lra. Qed.
Lemma UNIT_pos : 0 < UNIT_MAGNITUDE.
Proof. unfold UNIT_MAGNITUDE. lra. Qed.

Lemma source_ok c wl : proper c -> known_kinds c -> 0 < wl ->
  exists src, the_source c wl src
    /\ add_source (Rtrunc (f_src_x c * f_scaling c)) (Rtrunc (f_src_y c * f_scaling c))
         (wl / SPEED_OF_LIGHT) (f_pulse c) (f_source c) (frame_grid c)
       = Ok (add_source_ src (named (source_name c) (frame_grid c))).
Proof.
  intros P [HP HS] Hw. unfold add_source.
  assert (exists st, signal_of (f_pulse c) = Some st
     /\ (f_pulse c = "continuous"%string -> st = SContinuous) /\ (f_pulse c = "hanning"%string -> st = SHanning))
    as (st & -> & C1 & C2).
  { destruct HP as [-> | [-> | ->]]; eexists; (split; [reflexivity|]); split; intros; reflexivity || discriminate. }
  set (args := mkSource (PFloat (wl / SPEED_OF_LIGHT)) 1 0 5 (Some (/ 10 ^ 15)) st).
  assert (SG : let sg := source_signal (frame_grid c) args in
     (f_pulse c = "continuous"%string -> exists T, sg = Continuous T 0
       /\ IZR T <= wl / (99 / 100 / sqrt 2 * (UNIT_MAGNITUDE / f_scaling c)) + / 2 < IZR T + 1)
    /\ (f_pulse c = "hanning"%string -> sg = Hanning (1 / (wl / SPEED_OF_LIGHT)) (/ 10 ^ 15) 5)).
  { cbn zeta. split; intros E.
    - unfold source_signal. cbn [args s_signal]. rewrite (C1 E). cbn [frame_grid g_time_step args s_period s_phase].
      eexists. split; [reflexivity|]. cbn [handle_time].
      assert (S2 : 0 < sqrt 2) by (apply sqrt_lt_R0; lra). pose proof SPEED_pos. pose proof UNIT_pos. pose proof (pr_scaling _ P).
      replace (wl / SPEED_OF_LIGHT / (99 / 100 * / sqrt (INR 2) * (UNIT_MAGNITUDE / f_scaling c) / SPEED_OF_LIGHT) + / 2)
        with (wl / (99 / 100 / sqrt 2 * (UNIT_MAGNITUDE / f_scaling c)) + / 2) by (change (INR 2) with 2; field; repeat split; lra).
      rewrite Rtrunc_nonneg.
      + apply Rfloor_spec.
      + assert (0 <= wl / (99 / 100 / sqrt 2 * (UNIT_MAGNITUDE / f_scaling c))); [|lra].
        apply Rlt_le, Rdiv_lt_0_compat; [exact Hw|]. apply Rmult_lt_0_compat; apply Rdiv_lt_0_compat; lra.
    - unfold source_signal. cbn [args s_signal]. rewrite (C2 E). reflexivity. }
  cbn zeta in SG. unfold source_name. destruct HS as [E|E]; rewrite E; cbn [String.eqb Ascii.eqb Bool.eqb].
  - exists (PointSource (Rtrunc (f_src_x c * f_scaling c), Rtrunc (f_src_y c * f_scaling c), 0%Z) 1 (source_signal (frame_grid c) args)).
    split; [|apply assign_point; reflexivity].
    exists (source_signal (frame_grid c) args). split; [apply SG|]. split; [apply SG|]. left. split; [exact E|reflexivity].
  - eexists. split; [|apply assign_line; reflexivity].
    exists (source_signal (frame_grid c) args). split; [apply SG|]. split; [apply SG|]. right. split; [exact E|].
    eexists. split; [reflexivity|]. apply profile_sum. discriminate.
Qed.

Lemma framed_frame c src : framed c (add_source_ src (named (source_name c) (frame_grid c))).
Proof.
  unfold framed. repeat (split; [reflexivity|]). split.
  { do 2 eexists. split; [reflexivity|]. split; eexists; repeat split; reflexivity. }
  repeat (split; [reflexivity|]). cbn. replace (1 / 1) with 1 by field. reflexivity.
Qed.

Lemma free_space_layout c wl : proper c -> 1 <= f_scaling c * f_pml c -> known_kinds c -> 0 < wl ->
  exists g src, init_fdtd c None wl = Ok g /\ framed c g /\ g_sources g = [src] /\ the_source c wl src
    /\ g_ie g = (fun _ _ => 1) /\ g_abs g = zero_field.
Proof.
  intros P H1 HK Hw. destruct (source_ok c wl P HK Hw) as (src & HS & E).
  exists (add_source_ src (named (source_name c) (frame_grid c))), src.
  rewrite (init_split c None wl P H1), E. split; [reflexivity|]. split; [apply framed_frame|].
  split; [reflexivity|]. split; [exact HS|]. split; [|reflexivity]. cbn. replace (1 / 1) with 1 by field. reflexivity.
Qed.

(** ** Layers *)
Definition same_frame (g g' : grid) : Prop :=
  g_N g' = g_N g /\ g_spacing g' = g_spacing g /\ g_courant g' = g_courant g /\ g_time_step g' = g_time_step g
  /\ g_E g' = g_E g /\ g_H g' = g_H g /\ g_im g' = g_im g /\ g_steps g' = g_steps g
  /\ g_sources g' = g_sources g /\ g_boundaries g' = g_boundaries g /\ g_detectors g' = g_detectors g.
Lemma same_frame_refl g : same_frame g g.
Proof. repeat split. Qed.
Lemma same_frame_trans g1 g2 g3 : same_frame g1 g2 -> same_frame g2 g3 -> same_frame g1 g3.
Proof. unfold same_frame. intuition congruence. Qed.
Lemma framed_same c g g' : same_frame g g' -> framed c g -> framed c g'.
Proof.
  intros (A1 & A2 & A3 & A4 & A5 & A6 & A7 & A8 & A9 & A10 & A11). unfold framed.
  rewrite A1, A2, A5, A6, A7, A8, A10, A11. auto.
Qed.

Lemma add_object_spec a b e freq g g' : g_N g AY = 3%nat -> g_N g AZ = 1%nat -> (a <= b <= g_N g AX)%nat ->
  add_object (Z.of_nat a) (Z.of_nat b) e freq g = Ok g' ->
  same_frame g g' /\ forall p c, in_grid (g_N g) p ->
    ((coord AX p < a \/ b <= coord AX p)%nat -> g_ie g' p c = g_ie g p c /\ g_abs g' p c = g_abs g p c)
    /\ ((a <= coord AX p < b)%nat -> regular_cell c a b p ->
        g_ie g' p c = 1 / fst e)
    /\ ((a <= coord AX p < b)%nat ->
        g_abs g' p c = / 2 * g_courant g * g_ie g' p c * (snd e * freq * 2 * PI * EPS_0) * g_spacing g * ETA_0)
    /\ ((a <= coord AX p < b)%nat -> ~ regular_cell c a b p ->
        g_ie g' p c = g_ie g (setc c (g_N g c - 1) p) c).
Proof.
  intros HY HZ HX H. unfold add_object, assign in H.
  destruct (setitem _ _ g) as [h [|]] eqn:E; [discriminate|]. inversion H; subst h; clear H.
  split.
  { apply register_object_inv in E as (x & y & z & lo & hi & _ & _ & _ & _ & _ & A). unfold same_frame. intuition. }
  intros [[px py] pz] c Hp. pose proof (Hp AY) as Py. pose proof (Hp AZ) as Pz. rewrite HY in Py. rewrite HZ in Pz.
  change [int_slice (Some (Z.of_nat a)) (Some (Z.of_nat b)); full_slice; full_slice] with
    [int_slice (Some (Z.of_nat a)) (Some (Z.of_nat b)); int_slice None None; int_slice None None] in E.
  destruct (object_acts_on_slices _ _ _ _ _ _ _ _ _ _ _ (a, 0%nat, 0%nat) (b, 3%nat, 1%nat) E) with (p := (px, py, pz)) (c := c)
    as (O1 & O2 & O3 & O4).
  - unfold slice_range. cbn [coord]. destruct (Z.ltb_spec (Z.of_nat a) 0); [lia|]. destruct (Z.ltb_spec (Z.of_nat b) 0); [lia|]. lia.
  - unfold slice_range. cbn [coord]. rewrite HY. lia.
  - unfold slice_range. cbn [coord]. rewrite HZ. lia.
  - assert (IN : (a <= coord AX (px, py, pz) < b)%nat -> in_cells (a, 0%nat, 0%nat) (b, 3%nat, 1%nat) (px, py, pz))
      by (intros K [| |]; cbn [coord] in *; lia).
    split.
    { intros K. apply O1. intros X. specialize (X AX). cbn [coord] in *. lia. }
    split.
    + intros K Rg. apply O2; [apply IN, K|]. destruct c; cbn [regular_cell coord] in *; lia.
    + split; [intros K; apply O4, IN, K|]. intros K Rg. apply O3; [apply IN, K| |]; destruct c; cbn [regular_cell coord] in *; try tauto; lia.
Qed.
Lemma add_object_ok a b e freq g : (a <= b <= g_N g AX)%nat ->
  exists g', add_object (Z.of_nat a) (Z.of_nat b) e freq g = Ok g'.
Proof.
  intros H. unfold add_object, assign, setitem, int_slice, full_slice. cbn [pad_key option_map handle_key handle_distance register].
  unfold register_object. cbn [claim_name].
  set (N := g_N g) in *.
  assert (RX : slice_range (N AX) (Some (Z.of_nat a)) (Some (Z.of_nat b)) a b).
  { unfold slice_range. destruct (Z.ltb_spec (Z.of_nat a) 0); [lia|]. destruct (Z.ltb_spec (Z.of_nat b) 0); [lia|]. lia. }
  assert (RF : forall n, slice_range n None None 0 n) by (intros n; unfold slice_range; lia).
  destruct (slice_range_region _ _ _ _ _ RX) as [X1 X2].
  destruct (slice_range_region _ _ _ _ _ (RF (N AY))) as [Y1 Y2].
  destruct (slice_range_region _ _ _ _ _ (RF (N AZ))) as [Z1 Z2].
  unfold object_region. rewrite X1, Y1, Z1. cbn [bind fst snd].
  set (lo := (Z.of_nat a, Z.of_nat 0, Z.of_nat 0)). set (hi := (Z.of_nat b, Z.of_nat (N AY), Z.of_nat (N AZ))).
  assert (EC : forall c, object_extent lo hi c = region_count N lo hi c /\ zcoord c hi = Z.of_nat (clip (N c) (zcoord c hi)) /\ zcoord c lo = Z.of_nat (clip (N c) (zcoord c lo))).
  { intros c. unfold object_extent, region_count, lo, hi. destruct c; cbn [zcoord]; rewrite !clip_nat by lia; lia. }
  assert (F : object_fits N lo hi = true).
  { unfold object_fits. apply andb_true_intro. split.
    - apply forallb_axes_intro. intros c. unfold border_fits. apply orb_true_iff. right. apply forallb_axes_intro. intros d.
      apply orb_true_iff. right. apply Nat.eqb_eq. symmetry. apply EC.
    - unfold box_fits. apply forallb_axes_intro. intros c. apply orb_true_iff. right. apply Z.eqb_eq.
      rewrite (proj1 (EC c)). reflexivity. }
  rewrite F. cbn [negb].
  assert (AF : absorb_fits N (HSlice (Some (Z.of_nat a)) (Some (Z.of_nat b)) None) (HSlice None None None) (HSlice None None None) (object_extent lo hi) = true).
  { unfold absorb_fits. cbn [is_list raw_count]. rewrite !(proj1 (EC _)). unfold region_count, lo, hi. cbn [zcoord].
    rewrite !clip_nat by lia. rewrite !Nat.sub_0_r, !Nat.eqb_refl, !orb_true_r. reflexivity. }
  rewrite AF. cbn [negb]. unfold raw_region. rewrite X2, Y2, Z2. cbn [bind]. eauto.
Qed.

Lemma edge_trunc c i : proper c -> Rtrunc (f_scaling c * layer_begin c i) = Z.of_nat (edge c i).
Proof.
  intros P. pose proof (begin_nonneg c i P) as [B1 B2]. pose proof (pr_scaling _ P). unfold edge. rewrite column_Z by lra.
  apply Rtrunc_nonneg. nra.
Qed.
Lemma get_some {A} (l : list A) i d : (i < length l)%nat -> get l i = Ok (nth i l d).
Proof. intros H. unfold get. rewrite (nth_error_nth' l d H). reflexivity. Qed.
Lemma get_inv {A} (l : list A) i x : get l i = Ok x -> (i < length l)%nat /\ forall d, nth i l d = x.
Proof.
  unfold get. destruct (nth_error l i) eqn:E; [|discriminate]. intros H; inversion H; subst.
  split; [apply nth_error_Some; congruence|]. intros d. apply nth_error_nth, E.
Qed.
Lemma layer_begin_S c i : (i < length (f_thick c))%nat -> layer_begin c (S i) = layer_begin c i + nth i (f_thick c) 0.
Proof. intros H. unfold layer_begin. rewrite Rsum_firstn_S by exact H. ring. Qed.
Lemma end_in_columns c : proper c -> (material_end c < columns c)%nat.
Proof. intros P. destruct (positions c P) as (_ & _ & _ & A & B & _). lia. Qed.

Lemma add_layers_spec c freq : proper c -> forall eps i g g',
  g_N g AX = columns c -> g_N g AY = 3%nat -> g_N g AZ = 1%nat ->
  (i + length eps <= length (f_thick c))%nat ->
  (forall p a, in_grid (g_N g) p -> (edge c i <= coord AX p)%nat -> g_ie g p a = 1) ->
  add_layers (f_scaling c) (f_thick c) freq i (layer_begin c i) (layer_begin c (S i)) eps g = Ok g' ->
  same_frame g g' /\ forall p a, in_grid (g_N g) p ->
    ((coord AX p < edge c i \/ edge c (i + length eps) <= coord AX p)%nat ->
        g_ie g' p a = g_ie g p a /\ g_abs g' p a = g_abs g p a)
    /\ forall j, (j < length eps)%nat -> (edge c (i + j) <= coord AX p < edge c (S (i + j)))%nat ->
       let e := nth j eps (0, 0) in
       (regular_cell a (edge c (i + j)) (edge c (S (i + j))) p -> g_ie g' p a = 1 / fst e)
       /\ (~ regular_cell a (edge c (i + j)) (edge c (S (i + j))) p -> g_ie g' p a = 1)
       /\ g_abs g' p a = / 2 * g_courant g * g_ie g' p a * (snd e * freq * 2 * PI * EPS_0) * g_spacing g * ETA_0.
Proof.
  intros P. induction eps as [|e r IH]; intros i g g' NX NY NZ HL HV H.
  { cbn in H. inversion H; subst. split; [apply same_frame_refl|]. intros p a _. split; [auto|]. intros j Hj. cbn in Hj. lia. }
  cbn [add_layers] in H. rewrite !edge_trunc in H by exact P.
  apply bind_ok in H as (g1 & H1 & H).
  pose proof (edge_mono c i P) as M. pose proof (edge_le_end c (S i) P) as M2. pose proof (end_in_columns c P) as M3.
  destruct (add_object_spec (edge c i) (edge c (S i)) e freq g g1 NY NZ ltac:(lia) H1) as [F1 S1].
  pose proof F1 as (FN & FS & FC & _).
  assert (FIRST : forall p a, in_grid (g_N g) p ->
      ((coord AX p < edge c i \/ edge c (S i) <= coord AX p)%nat -> g_ie g1 p a = g_ie g p a /\ g_abs g1 p a = g_abs g p a)
      /\ ((edge c i <= coord AX p < edge c (S i))%nat ->
          (regular_cell a (edge c i) (edge c (S i)) p -> g_ie g1 p a = 1 / fst e)
          /\ (~ regular_cell a (edge c i) (edge c (S i)) p -> g_ie g1 p a = 1)
          /\ g_abs g1 p a = / 2 * g_courant g * g_ie g1 p a * (snd e * freq * 2 * PI * EPS_0) * g_spacing g * ETA_0)).
  { intros p a Hp. destruct (S1 p a Hp) as (O1 & O2 & O3 & O4). split; [exact O1|]. intros K.
    split; [apply O2, K|]. split; [|apply O3, K]. intros NR. rewrite (O4 K NR). apply HV.
    - intros b. destruct p as [[px py] pz]. pose proof (Hp AX) as PX. pose proof (Hp AY) as PY. pose proof (Hp AZ) as PZ.
      destruct a, b; cbn [setc coord] in *; lia.
    - destruct p as [[px py] pz], a; cbn [setc coord] in *; lia. }
  destruct r as [|e2 r].
  { inversion H; subst g'. split; [exact F1|]. intros p a Hp. destruct (FIRST p a Hp) as [Q1 Q2].
    cbn [length]. rewrite Nat.add_1_r. split; [exact Q1|]. intros j Hj. assert (j = 0)%nat as -> by lia. rewrite Nat.add_0_r.
    exact Q2. }
  cbn [length] in HL.
  rewrite (get_some _ i 0), (get_some _ (S i) 0) in H by lia. cbn [bind] in H.
  rewrite <- !layer_begin_S in H by lia.
  destruct (IH (S i) g1 g') as [F2 S2]; try (rewrite FN; assumption); [cbn [length]; lia| |exact H|].
  { rewrite FN. intros p a Hp K. destruct (FIRST p a Hp) as [Q _]. rewrite (proj1 (Q (or_intror K))). apply HV; [exact Hp|lia]. }
  split; [eapply same_frame_trans; eassumption|]. rewrite FN, FC, FS in S2.
  intros p a Hp. destruct (S2 p a Hp) as [T1 T2]. destruct (FIRST p a Hp) as [Q1 Q2].
  pose proof (edge_le c (S i) (S i + length (e2 :: r)) P ltac:(lia)) as M4.
  split.
  - intros K. replace (i + length (e :: e2 :: r))%nat with (S i + length (e2 :: r))%nat in K by (cbn [length]; lia).
    destruct (T1 ltac:(lia)) as [-> ->]. apply Q1. lia.
  - intros [|j] Hj K.
    + rewrite Nat.add_0_r in *. cbn [nth]. destruct (T1 ltac:(left; lia)) as [-> ->]. apply Q2, K.
    + replace (i + S j)%nat with (S i + j)%nat in * by lia. cbn [nth]. apply T2; [cbn [length] in *; lia|exact K].
Qed.

Lemma add_layers_ok c freq : proper c -> forall eps i g,
  g_N g AX = columns c -> g_N g AY = 3%nat -> g_N g AZ = 1%nat -> (i < length (f_thick c))%nat -> eps <> [] ->
  ((exists g', add_layers (f_scaling c) (f_thick c) freq i (layer_begin c i) (layer_begin c (S i)) eps g = Ok g')
   <-> (i + length eps <= length (f_thick c))%nat).
Proof.
  intros P. induction eps as [|e r IH]; intros i g NX NY NZ HI HE; [congruence|].
  cbn [add_layers]. rewrite !edge_trunc by exact P.
  pose proof (edge_mono c i P) as M. pose proof (edge_le_end c (S i) P) as M2. pose proof (end_in_columns c P) as M3.
  destruct (add_object_ok (edge c i) (edge c (S i)) e freq g ltac:(lia)) as [g1 E1]. rewrite E1. cbn [bind].
  destruct (add_object_spec (edge c i) (edge c (S i)) e freq g g1 NY NZ ltac:(lia) E1) as [(FN & _) _].
  destruct r as [|e2 r].
  { cbn. split; [intros; lia|eauto]. }
  rewrite (get_some _ i 0) by lia. cbn [bind].
  destruct (Nat.ltb_spec (S i) (length (f_thick c))) as [L|L].
  - rewrite (get_some _ (S i) 0) by lia. cbn [bind]. rewrite <- !layer_begin_S by lia.
    rewrite IH; try (rewrite FN; assumption); try assumption; [|discriminate]. cbn [length]. split; intros; lia.
  - unfold get at 1. assert (nth_error (f_thick c) (S i) = None) as -> by (apply nth_error_None; lia). cbn [bind length].
    split; [intros [? ?]; discriminate|lia].
Qed.

(** What the material simulation looks like. *)
Lemma material_layout c slice wl row layers : proper c -> 1 <= f_scaling c * f_pml c -> known_kinds c -> 0 < wl ->
  f_thick c <> [] -> get slice 0 = Ok row -> get row 0 = Ok layers -> layers <> [] ->
  ((length layers <= length (f_thick c))%nat <-> exists g, init_fdtd c (Some slice) wl = Ok g)
  /\ forall g, init_fdtd c (Some slice) wl = Ok g ->
    framed c g /\ (exists src, g_sources g = [src] /\ the_source c wl src)
    /\ forall p a, in_grid (g_N g) p ->
      ((coord AX p < edge c 0 \/ edge c (length layers) <= coord AX p)%nat -> g_ie g p a = 1 /\ g_abs g p a = 0)
      /\ forall j, (j < length layers)%nat -> (edge c j <= coord AX p < edge c (S j))%nat ->
         let e := nth j layers (0, 0) in
         (regular_cell a (edge c j) (edge c (S j)) p -> g_ie g p a = 1 / fst e)
         /\ (~ regular_cell a (edge c j) (edge c (S j)) p -> g_ie g p a = 1)
         /\ g_abs g p a = / 2 * g_courant g * g_ie g p a * conductivity e wl * g_spacing g * ETA_0.
Proof.
  intros P H1 HK Hw HT HR HL HE. destruct (source_ok c wl P HK Hw) as (src & HS & E).
  rewrite (init_split c (Some slice) wl P H1), E. cbn [bind]. cbv zeta.
  assert (T0 : (0 < length (f_thick c))%nat) by (destruct (f_thick c); [congruence|cbn; lia]).
  rewrite (get_some _ 0 0) by exact T0. cbn [bind]. rewrite HR. cbn [bind]. rewrite HL. cbn [bind].
  assert (B0 : f_pml c + f_free c = layer_begin c 0) by (unfold layer_begin; cbn; lra).
  rewrite B0, <- layer_begin_S by exact T0.
  set (g0 := add_source_ src (named (source_name c) (frame_grid c))).
  split.
  { symmetry. apply (add_layers_ok c (SPEED_OF_LIGHT / wl) P layers 0 g0); try reflexivity; assumption. }
  intros g H.
  assert (LL : (0 + length layers <= length (f_thick c))%nat)
    by (eapply (proj1 (add_layers_ok c (SPEED_OF_LIGHT / wl) P layers 0 g0 eq_refl eq_refl eq_refl T0 HE)); eauto).
  assert (V : forall p a, g_ie g0 p a = 1) by (intros; cbn; field).
  assert (V2 : forall p a, g_abs g0 p a = 0) by reflexivity.
  destruct (add_layers_spec c _ P layers 0 g0 g eq_refl eq_refl eq_refl LL (fun p a _ _ => V p a) H) as [F S].
  pose proof F as (FN & FS & FC & _ & _ & _ & _ & _ & FR & _).
  split; [eapply framed_same; [exact F|apply framed_frame]|].
  split; [exists src; split; [rewrite FR; reflexivity|exact HS]|].
  intros p a Hp. rewrite FN in Hp. destruct (S p a Hp) as [S1 S2]. cbn [plus] in *. rewrite FC, FS. split.
  - intros K. rewrite <- (V p a), <- (V2 p a). apply S1, K.
  - intros j Hj K. exact (S2 j Hj K).
Qed.
