(** Proofs about objects: where they act, and that absorbing material damps. *)
From Coq Require Import Reals ZArith String List Bool Lra Lia Psatz FunctionalExtensionality.
From Verif Require Import Base BaseLemmas Model_Units Proof_Units Model_FDTD Model_Register Spec_FDTD Spec_Register Proof_Torus Proof_FDTD Proof_Energy Proof_Propagate Proof_Steps Proof_Linear Proof_Reset Proof_Cavity Proof_Register Proof_Register2.
Import ListNotations.
Open Scope R_scope.

(** * Ranges *)

Lemma in_box_spec lo hi p : in_box lo hi p = true <-> in_cells lo hi p.
Proof.
  unfold in_box, in_cells. rewrite forallb_forall. split.
  - intros H a. assert (K : In a [AX; AY; AZ]) by (destruct a; cbn; auto). specialize (H a K).
    apply andb_prop in H as [H1 H2]. apply Nat.leb_le in H1. apply Nat.ltb_lt in H2. lia.
  - intros H a _. specialize (H a). apply andb_true_intro. split; [apply Nat.leb_le|apply Nat.ltb_lt]; lia.
Qed.

(** What a successful object registration does. *)
Definition object_written (g : grid) (eps : R) (lo hi : zpos) (base p : pos) (c : axis) : R :=
  object_ie (g_N g) (g_ie g) eps lo hi (source_cell (object_extent lo hi) base p) c.
Lemma register_object_inv key nm eps cond g g' : setitem key (CObject nm eps cond) g = (g', None) ->
  exists x y z lo hi, pad_key key = Ok (x, y, z)
    /\ object_region (g_N g) (handle_key (g_spacing g) x) (handle_key (g_spacing g) y) (handle_key (g_spacing g) z) = Ok (lo, hi)
    /\ object_fits (g_N g) lo hi = true
    /\ g_ie g' = (fun p c => if in_box (clip3 (g_N g) lo) (clip3 (g_N g) hi) p
                             then object_written g eps lo hi (clip3 (g_N g) lo) p c else g_ie g p c)
    /\ match cond with
       | None => g_abs g' = g_abs g
       | Some s => exists rlo rhi,
           absorb_fits (g_N g) (handle_key (g_spacing g) x) (handle_key (g_spacing g) y) (handle_key (g_spacing g) z) (object_extent lo hi) = true
           /\ raw_region (g_N g) (handle_key (g_spacing g) x) (handle_key (g_spacing g) y) (handle_key (g_spacing g) z) = Ok (rlo, rhi)
           /\ g_abs g' = (fun p c => if in_box rlo rhi p
                then / 2 * g_courant g * object_written g eps lo hi rlo p c * s * g_spacing g * ETA_0
                else g_abs g p c)
       end
    /\ g_N g' = g_N g /\ g_courant g' = g_courant g /\ g_im g' = g_im g /\ g_E g' = g_E g /\ g_H g' = g_H g
    /\ g_sources g' = g_sources g /\ g_boundaries g' = g_boundaries g /\ g_detectors g' = g_detectors g
    /\ g_spacing g' = g_spacing g /\ g_steps g' = g_steps g /\ g_time_step g' = g_time_step g.
Proof.
  intros H. unfold setitem in H. destruct (pad_key key) as [[[x y] z]|] eqn:Hk; [|discriminate].
  cbn [register] in H. unfold register_object in H.
  destruct (claim_name nm (add_object_ g)) as [g1|] eqn:E; [|discriminate].
  apply claim_name_inv in E as [E _]. unfold same_physics in E. cbn in E.
  destruct E as (E1 & E2 & E3 & E4 & E5 & E6 & E7 & E8 & E9 & E10 & E11 & E12 & E13).
  destruct (object_region (g_N g) _ _ _) as [[lo hi]|] eqn:O; [|discriminate].
  destruct (object_fits (g_N g) lo hi) eqn:F; cbn [negb] in H; [|discriminate].
  exists x, y, z, lo, hi.
  destruct cond as [s|].
  - destruct (absorb_fits _ _ _ _ _) eqn:AF; cbn [negb] in H; [|discriminate].
    destruct (raw_region (g_N g) _ _ _) as [[rlo rhi]|] eqn:RR; [|discriminate].
    inversion H; subst; clear H.
    cbn [with_material g_N g_spacing g_courant g_time_step g_E g_H g_abs g_ie g_im g_steps g_sources g_boundaries g_detectors].
    rewrite <- ?E1, <- ?E2, <- ?E3, <- ?E4, <- ?E5, <- ?E6, <- ?E9, <- ?E10, <- ?E11, <- ?E12, <- ?E13.
    repeat (split; [assumption || reflexivity|]). split; [|repeat split]. exists rlo, rhi. repeat split; assumption.
  - inversion H; subst; clear H.
    cbn [with_material g_N g_spacing g_courant g_time_step g_E g_H g_abs g_ie g_im g_steps g_sources g_boundaries g_detectors].
    rewrite <- ?E1, <- ?E2, <- ?E3, <- ?E4, <- ?E5, <- ?E6, <- ?E9, <- ?E10, <- ?E11, <- ?E12, <- ?E13.
    repeat split; assumption || reflexivity.
Qed.

Lemma coord_clip3 N a p : coord a (clip3 N p) = clip (N a) (zcoord a p).
Proof. destruct a; reflexivity. Qed.
Lemma coord_source_cell a ext lo p : coord a (source_cell ext lo p) = if (ext a =? 1)%nat then 0%nat else (coord a p - coord a lo)%nat.
Proof. destruct a; reflexivity. Qed.
Lemma coord_shift a lo p : coord a (shift_pos lo p) = (coord a lo + coord a p)%nat.
Proof. destruct a; reflexivity. Qed.
Lemma clip_le n z : (clip n z <= n)%nat.
Proof. unfold clip. destruct (Z.ltb_spec z 0); lia. Qed.
Lemma forallb_axes f : forallb f [AX; AY; AZ] = true -> forall a : axis, f a = true.
Proof. rewrite forallb_forall. intros H a. apply H. destruct a; cbn; tauto. Qed.
Lemma forallb_axes_intro f : (forall a : axis, f a = true) -> forallb f [AX; AY; AZ] = true.
Proof. intros H. apply forallb_forall. auto. Qed.

(** What the accepted shapes are. *)
Lemma object_fits_spec N lo hi : object_fits N lo hi = true ->
  (forall a, object_extent lo hi a = 1%nat \/ object_extent lo hi a = region_count N lo hi a)
  /\ (forall c a, (1 < object_extent lo hi c)%nat -> object_extent lo hi a = region_count N lo hi a).
Proof.
  unfold object_fits. intros H. apply andb_prop in H as [HB HX].
  assert (X : forall a, object_extent lo hi a = 1%nat \/ object_extent lo hi a = region_count N lo hi a).
  { intros a. unfold box_fits in HX. apply (fun h => forallb_axes _ h a) in HX. apply orb_prop in HX. rewrite !Z.eqb_eq in HX.
    unfold region_count. lia. }
  split; [exact X|]. intros c a Hc. apply (fun h => forallb_axes _ h c) in HB. unfold border_fits in HB.
  apply orb_prop in HB as [HB|HB]; [apply Nat.leb_le in HB; lia|]. apply (fun h => forallb_axes _ h a) in HB.
  apply orb_prop in HB as [HB|HB]; [apply orb_prop in HB as [HB|HB]|].
  - apply axis_eqb_true in HB. subst. destruct (X c); lia.
  - apply Nat.eqb_eq in HB. destruct (X a); lia.
  - apply Nat.eqb_eq in HB. congruence.
Qed.
(** The cell of the grid whose value the object takes over lies on the grid. *)
Lemma border_in_grid N lo hi c q : object_fits N lo hi = true -> (1 < object_extent lo hi c)%nat ->
  (forall a, coord a q < object_extent lo hi a)%nat ->
  in_grid N (setc c (N c - 1) (shift_pos (clip3 N lo) q)).
Proof.
  intros F Hc Hq a. destruct (object_fits_spec _ _ _ F) as [_ X].
  pose proof (X c a Hc) as Xa. pose proof (X c c Hc) as Xc. unfold region_count in Xa, Xc.
  pose proof (clip_le (N a) (zcoord a hi)). pose proof (clip_le (N c) (zcoord c hi)).
  destruct (axis_eqb a c) eqn:E.
  - apply axis_eqb_true in E. subst a. rewrite coord_setc_same. lia.
  - rewrite coord_setc_other; [|intros K; subst; destruct c; discriminate].
    rewrite coord_shift, coord_clip3. specialize (Hq a). lia.
Qed.
Lemma source_cell_lt ext lo hi p : (forall a, ext a = 1%nat \/ ext a = (coord a hi - coord a lo)%nat) -> in_cells lo hi p ->
  forall a, (coord a (source_cell ext lo p) < ext a)%nat.
Proof.
  intros X P a. rewrite coord_source_cell. specialize (X a). specialize (P a). destruct (Nat.eqb_spec (ext a) 1); lia.
Qed.
(** Whatever holds of 1/eps and of the background on the grid holds of what the
    object writes. *)
Lemma object_written_ind (P : axis -> R -> Prop) g eps lo hi base top p c : object_fits (g_N g) lo hi = true ->
  (forall a, object_extent lo hi a = 1%nat \/ object_extent lo hi a = (coord a top - coord a base)%nat) -> in_cells base top p ->
  (forall q c, in_grid (g_N g) q -> P c (g_ie g q c)) -> P c (1 / eps) -> P c (object_written g eps lo hi base p c).
Proof.
  intros F X HP HG He. unfold object_written, object_ie.
  destruct (Nat.ltb_spec 1 (object_extent lo hi c)); cbn [andb]; [|exact He].
  destruct (Nat.eqb_spec (S (coord c (source_cell (object_extent lo hi) base p))) (object_extent lo hi c)); [|exact He].
  apply HG. apply (border_in_grid (g_N g) lo hi); [exact F|assumption|]. intros a. apply (source_cell_lt _ _ _ _ X HP).
Qed.
Lemma region_ext g lo hi : object_fits (g_N g) lo hi = true -> forall a, object_extent lo hi a = 1%nat
  \/ object_extent lo hi a = (coord a (clip3 (g_N g) hi) - coord a (clip3 (g_N g) lo))%nat.
Proof. intros F a. rewrite !coord_clip3. apply (proj1 (object_fits_spec _ _ _ F)). Qed.
Lemma raw_range_count n k r : raw_range n k = Ok r -> (snd r - fst r = raw_count n k)%nat.
Proof.
  destruct k as [[|v [|]]|]; cbn; try discriminate; intros H.
  - destruct (resolve n v); cbn in H; [|discriminate]. inversion H; subst. cbn [fst snd]. lia.
  - inversion H; subst. reflexivity.
Qed.
(** The absorption lands on as many cells as the object has. *)
Lemma raw_ext N x y z lo hi rlo rhi : object_region N x y z = Ok (lo, hi) -> absorb_fits N x y z (object_extent lo hi) = true ->
  raw_region N x y z = Ok (rlo, rhi) -> forall a, object_extent lo hi a = 1%nat
  \/ object_extent lo hi a = (coord a rhi - coord a rlo)%nat.
Proof.
  intros O A R. unfold object_region in O. apply bind_ok in O as (ox & OX & O). apply bind_ok in O as (oy & OY & O). apply bind_ok in O as (oz & OZ & O).
  inversion O; subst lo hi; clear O.
  unfold raw_region in R. apply bind_ok in R as (rx & RX & R). apply bind_ok in R as (ry & RY & R). apply bind_ok in R as (rz & RZ & R).
  inversion R; subst rlo rhi; clear R.
  pose proof (usual_list _ _ _ OX) as LX. pose proof (usual_list _ _ _ OY) as LY. pose proof (usual_list _ _ _ OZ) as LZ.
  pose proof (raw_range_count _ _ _ RX) as CX. pose proof (raw_range_count _ _ _ RY) as CY. pose proof (raw_range_count _ _ _ RZ) as CZ.
  unfold absorb_fits in A. revert A.
  destruct (is_list x), (is_list y), (is_list z); rewrite ?andb_true_iff, ?orb_true_iff, ?Nat.eqb_eq; intros A a;
    destruct a; cbn [coord object_extent zcoord] in *; unfold object_extent in *; cbn [zcoord] in *; rewrite ?CX, ?CY, ?CZ;
    try (left; lia); intuition lia.
Qed.

Lemma object_keeps key nm eps cond g g' (P : axis -> R -> Prop) : setitem key (CObject nm eps cond) g = (g', None) ->
  (forall p c, in_grid (g_N g) p -> P c (g_ie g p c)) -> (forall c, P c (1 / eps)) ->
  (forall p c, in_grid (g_N g) p -> P c (g_ie g' p c))
  /\ forall p c, in_grid (g_N g) p -> g_abs g' p c = g_abs g p c
      \/ exists s v, cond = Some s /\ P c v /\ g_abs g' p c = / 2 * g_courant g * v * s * g_spacing g * ETA_0.
Proof.
  intros H HP He.
  apply register_object_inv in H as (x & y & z & lo & hi & _ & O & F & I & A & N & C & M & _). split.
  - intros p c Hp. rewrite I. destruct (in_box _ _ p) eqn:B; [|apply HP, Hp]. apply in_box_spec in B.
    apply (object_written_ind P g eps lo hi _ (clip3 (g_N g) hi) p c F); auto. apply region_ext, F.
  - intros p c Hp. destruct cond as [s|]; [|left; rewrite A; reflexivity].
    destruct A as (rlo & rhi & AF & RR & A). rewrite A. destruct (in_box rlo rhi p) eqn:B; [|auto]. apply in_box_spec in B.
    right. eexists s, _. split; [reflexivity|]. split; [|reflexivity].
    apply (object_written_ind P g eps lo hi _ rhi p c F); auto. eapply raw_ext; eassumption.
Qed.

(** An object given by three slices acts on exactly the cells of these slices. *)
Lemma slice_range_region n a b l h : slice_range n a b l h ->
  object_slice n (HSlice a b None) = Ok (Z.of_nat l, Z.of_nat h) /\ raw_range n (HSlice a b None) = Ok (l, h).
Proof.
  intros (HA & HB & HL). split.
  - cbn [object_slice]. apply f_equal. f_equal; [rewrite HA; destruct a; reflexivity|].
    rewrite HB. destruct b; [reflexivity|]. destruct (Z.ltb_spec (Z.of_nat n) 0); [lia|reflexivity].
  - cbn [raw_range]. apply f_equal. f_equal.
    + destruct a as [v|]; [|lia]. unfold clip. destruct (Z.ltb_spec v 0); lia.
    + destruct b as [v|]; [|lia]. unfold clip. destruct (Z.ltb_spec v 0); lia.
Qed.
Lemma object_acts_on_slices ax bx ay by_ az bz nm eps cond g g' lo hi :
  setitem [int_slice ax bx; int_slice ay by_; int_slice az bz] (CObject nm eps cond) g = (g', None) ->
  slice_range (g_N g AX) ax bx (coord AX lo) (coord AX hi) ->
  slice_range (g_N g AY) ay by_ (coord AY lo) (coord AY hi) ->
  slice_range (g_N g AZ) az bz (coord AZ lo) (coord AZ hi) ->
  forall p c,
    (~ in_cells lo hi p -> g_ie g' p c = g_ie g p c /\ g_abs g' p c = g_abs g p c)
    /\ (in_cells lo hi p -> (S (coord c p) < coord c hi)%nat \/ (coord c hi <= S (coord c lo))%nat ->
        g_ie g' p c = 1 / eps)
    /\ (in_cells lo hi p -> S (coord c p) = coord c hi -> (S (coord c lo) < coord c hi)%nat ->
        g_ie g' p c = g_ie g (setc c (g_N g c - 1) p) c)
    /\ (in_cells lo hi p -> g_abs g' p c = match cond with
        | None => g_abs g p c
        | Some s => / 2 * g_courant g * g_ie g' p c * s * g_spacing g * ETA_0 end).
Proof.
  intros H RX RY RZ p c.
  apply register_object_inv in H as (x & y & z & zl & zh & Hk & O & F & I & A & _).
  cbn in Hk. inversion Hk; subst x y z; clear Hk.
  assert (HK : forall a b, handle_key (g_spacing g) (int_slice a b) = HSlice a b None)
    by (intros [a|] [b|]; reflexivity).
  rewrite !HK in O. unfold object_region in O.
  rewrite (proj1 (slice_range_region _ _ _ _ _ RX)), (proj1 (slice_range_region _ _ _ _ _ RY)), (proj1 (slice_range_region _ _ _ _ _ RZ)) in O.
  cbn [bind fst snd] in O.
  assert (zl = (Z.of_nat (coord AX lo), Z.of_nat (coord AY lo), Z.of_nat (coord AZ lo))) as Ezl by congruence.
  assert (zh = (Z.of_nat (coord AX hi), Z.of_nat (coord AY hi), Z.of_nat (coord AZ hi))) as Ezh by congruence.
  assert (C : forall q : pos, (coord AX q, coord AY q, coord AZ q) = q) by (intros [[? ?] ?]; reflexivity).
  assert (BD : forall a, (coord a lo <= coord a hi <= g_N g a)%nat)
    by (destruct RX as (_ & _ & ?), RY as (_ & _ & ?), RZ as (_ & _ & ?); intros [| |]; assumption).
  assert (CL : clip3 (g_N g) zl = lo).
  { rewrite <- (C lo). rewrite Ezl. unfold clip3. cbn [zcoord]. rewrite !clip_nat; [reflexivity| | |];
      [specialize (BD AZ)|specialize (BD AY)|specialize (BD AX)]; lia. }
  assert (CH : clip3 (g_N g) zh = hi).
  { rewrite <- (C hi). rewrite Ezh. unfold clip3. cbn [zcoord]. rewrite !clip_nat; [reflexivity| | |]; apply BD. }
  assert (EX : forall a, object_extent zl zh a = (coord a hi - coord a lo)%nat).
  { intros a. unfold object_extent. rewrite Ezl, Ezh. specialize (BD a). destruct a; cbn [zcoord]; lia. }
  rewrite CL, CH in I.
  assert (OW : in_cells lo hi p -> object_written g eps zl zh lo p c
     = if (1 <? coord c hi - coord c lo)%nat && (S (coord c p) =? coord c hi)%nat
       then g_ie g (setc c (g_N g c - 1) p) c else 1 / eps).
  { intros P. unfold object_written, object_ie. rewrite CL, EX.
    assert (SH : shift_pos lo (source_cell (object_extent zl zh) lo p) = p).
    { rewrite <- (C p) at 2. unfold shift_pos. rewrite !coord_source_cell, !EX.
      pose proof (P AX). pose proof (P AY). pose proof (P AZ).
      apply f_equal2; [apply f_equal2|];
        match goal with |- context [Nat.eqb ?a ?b] => destruct (Nat.eqb_spec a b) end; lia. }
    rewrite SH, coord_source_cell, EX. specialize (P c).
    destruct (Nat.ltb_spec 1 (coord c hi - coord c lo)); cbn [andb]; [|reflexivity].
    destruct (Nat.eqb_spec (coord c hi - coord c lo) 1); [lia|].
    destruct (Nat.eqb_spec (S (coord c p - coord c lo)) (coord c hi - coord c lo)), (Nat.eqb_spec (S (coord c p)) (coord c hi)); try lia; reflexivity. }
  assert (AB : g_abs g' p c = match cond with None => g_abs g p c
     | Some s => if in_box lo hi p then / 2 * g_courant g * g_ie g' p c * s * g_spacing g * ETA_0 else g_abs g p c end).
  { destruct cond as [s|]; [|rewrite A; reflexivity]. destruct A as (rlo & rhi & _ & RR & A).
    rewrite !HK in RR. unfold raw_region in RR.
    rewrite (proj2 (slice_range_region _ _ _ _ _ RX)), (proj2 (slice_range_region _ _ _ _ _ RY)), (proj2 (slice_range_region _ _ _ _ _ RZ)) in RR.
    cbn [bind fst snd] in RR. rewrite !C in RR. inversion RR; subst rlo rhi. rewrite A, I.
    destruct (in_box lo hi p); reflexivity. }
  rewrite AB, I. destruct (in_box lo hi p) eqn:B.
  - apply in_box_spec in B. rewrite (OW B). repeat split; try (intros; contradiction).
    + intros _ [K|K]; destruct (Nat.ltb_spec 1 (coord c hi - coord c lo)), (Nat.eqb_spec (S (coord c p)) (coord c hi));
        cbn [andb]; try reflexivity; specialize (B c); lia.
    + intros _ K1 K2. destruct (Nat.ltb_spec 1 (coord c hi - coord c lo)), (Nat.eqb_spec (S (coord c p)) (coord c hi));
        cbn [andb]; try reflexivity; lia.
  - assert (NB : ~ in_cells lo hi p) by (intros K; apply in_box_spec in K; congruence).
    repeat split; intros; try contradiction. destruct cond; reflexivity.
Qed.

(** * Damping *)

Lemma ETA_pos : 0 < ETA_0.
Proof.
  unfold ETA_0. pose proof MU_0_pos. apply Rmult_lt_0_compat; [assumption|]. unfold SPEED_OF_LIGHT. lra.
Qed.

(** Registering a passive object keeps a grid passive. *)
Lemma object_keeps_passive key nm eps cond g g' m : setitem key (CObject nm eps cond) g = (g', None) ->
  0 < m -> passive m g -> m <= 1 / eps <= 1 -> 0 <= g_courant g -> 0 <= g_spacing g ->
  match cond with Some s => 0 <= s | None => True end -> passive m g'.
Proof.
  intros H Hm HP He Hc Hs Hcond.
  assert (INV := H). apply register_object_inv in INV as (x & y & z & lo & hi & _ & _ & _ & _ & _ & N & C & M & _).
  destruct (object_keeps _ _ _ _ _ _ (fun _ v => m <= v <= 1) H) as [K1 K2];
    [intros p c Hp; apply (HP p c Hp)|intros _; exact He|].
  intros p c Hp. rewrite N in Hp. destruct (HP p c Hp) as (P1 & P2 & P3). rewrite M.
  split; [apply K1, Hp|]. split; [exact P2|].
  destruct (K2 p c Hp) as [E|(s & v & E1 & V & E)]; [rewrite E; exact P3|]. subst cond. rewrite E.
  pose proof ETA_pos.
  repeat match goal with |- 0 <= _ * _ => apply Rmult_le_pos end; try assumption; lra.
Qed.

(** The factors of the electric update. *)
Lemma absorbing_damps key nm eps s g g' : setitem key (CObject nm eps (Some s)) g = (g', None) ->
  0 < eps -> 0 <= s -> 0 <= g_courant g -> 0 <= g_spacing g ->
  (forall p c, in_grid (g_N g) p -> 0 < g_ie g p c /\ 0 <= g_abs g p c) ->
  forall p c, in_grid (g_N g) p -> exists keep gain,
    Rabs keep <= 1 /\ 0 < gain <= 1
    /\ (forall E H : field, bulk_E (with_fields g' E H (g_steps g') (g_boundaries g') (g_detectors g')) p c
        = keep * E p c + gain * (g_courant g' * g_ie g' p c * curl_H H p c)).
Proof.
  intros H He Hs Hc Hsp HG p c Hp.
  destruct (object_keeps _ _ _ _ _ _ (fun _ v => 0 < v) H) as [K1 K2];
    [intros q d Hq; apply HG, Hq|intros _; apply Rdiv_lt_0_compat; lra|].
  clear H.
  assert (HA : 0 <= g_abs g' p c).
  { destruct (K2 p c Hp) as [E|(s' & v & E1 & V & E)]; [rewrite E; apply HG, Hp|].
    inversion E1; subst s'. rewrite E. pose proof ETA_pos.
    repeat match goal with |- 0 <= _ * _ => apply Rmult_le_pos end; try assumption; lra. }
  exists ((1 - g_abs g' p c) / (1 + g_abs g' p c)), (/ (1 + g_abs g' p c)).
  split; [|split]; [| |intros E H; unfold bulk_E; cbn; unfold Rdiv; ring];
    revert HA; generalize (g_abs g' p c); intros a HA.
  - unfold Rdiv. rewrite Rabs_mult, (Rabs_right (/ _)) by (left; apply Rinv_0_lt_compat; lra).
    apply (Rmult_le_reg_r (1 + a)); [lra|]. rewrite Rmult_assoc, Rinv_l by lra.
    rewrite Rmult_1_r, Rmult_1_l. apply Rabs_le. lra.
  - split; [apply Rinv_0_lt_compat; lra|]. rewrite <- Rinv_1. apply Rinv_le_contravar; lra.
Qed.

(** A conductivity of zero is no conductivity. *)
Lemma zero_conductivity key nm eps g : (forall p c, g_abs g p c = 0) ->
  (exists g', setitem key (CObject nm eps (Some 0)) g = (g', None)) \/ within_grid g key ->
  setitem key (CObject nm eps (Some 0)) g = setitem key (CObject nm eps None) g.
Proof.
  intros HA HU. unfold setitem in *. destruct (pad_key key) as [[[x y] z]|] eqn:Hk; [|reflexivity].
  cbn [register] in *. unfold register_object in *. destruct (claim_name nm (add_object_ g)); [|reflexivity].
  destruct (object_region (g_N g) _ _ _) as [[lo hi]|] eqn:O; [|reflexivity].
  destruct (object_fits (g_N g) lo hi) eqn:F; cbn [negb] in *; [|reflexivity].
  assert (Q : absorb_fits (g_N g) (handle_key (g_spacing g) x) (handle_key (g_spacing g) y) (handle_key (g_spacing g) z) (object_extent lo hi) = true
    /\ exists r, raw_region (g_N g) (handle_key (g_spacing g) x) (handle_key (g_spacing g) y) (handle_key (g_spacing g) z) = Ok r).
  { destruct HU as [[g' HU]|HU].
    - destruct (absorb_fits _ _ _ _ _); cbn [negb] in HU; [|discriminate]. split; [reflexivity|].
      destruct (raw_region _ _ _ _) as [r|]; [eauto|discriminate].
    - destruct (HU _ _ _ Hk) as (UX & UY & UZ & L). exact (usual_absorb _ _ _ _ _ _ _ UX UY UZ L O F). }
  destruct Q as [Q1 ([rlo rhi] & Q2)]. rewrite Q1, Q2. cbn [negb].
  apply f_equal2; [|reflexivity]. apply f_equal2; [|reflexivity].
  apply functional_extensionality. intros p. apply functional_extensionality. intros c.
  destruct (in_box rlo rhi p); [|reflexivity]. rewrite HA. ring.
Qed.

(** An object without conductivity does not remove what an earlier absorbing
    object left in its cells. *)
Lemma plain_object_keeps_absorption key nm eps g g' : setitem key (CObject nm eps None) g = (g', None) ->
  forall p c, g_abs g' p c = g_abs g p c.
Proof.
  intros H p c. apply register_object_inv in H as (x & y & z & lo & hi & _ & _ & _ & I & A & _).
  rewrite A. reflexivity.
Qed.
