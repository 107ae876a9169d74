(** Proofs about unusual placements: objects given by single numbers, absorbing
    objects that raise half-way, borders that are refused. *)
From Coq Require Import Reals ZArith String List Bool Lra Lia Psatz.
From Verif Require Import Base BaseLemmas Model_Units Model_FDTD Model_Register Spec_FDTD Spec_Register Proof_Torus Proof_FDTD Proof_Steps Proof_Register Proof_Register2 Proof_Material Proof_PML.
Import ListNotations.
Open Scope R_scope.

(** * Objects *)

Lemma fits_intro N lo hi : (forall a, object_extent lo hi a = region_count N lo hi a) -> object_fits N lo hi = true.
Proof.
  intros EC. unfold object_fits. apply andb_true_intro. split.
  - apply forallb_axes_intro. intros c. unfold border_fits. apply orb_true_iff. right. apply forallb_axes_intro. intros d.
    apply orb_true_iff. right. apply Nat.eqb_eq. symmetry. apply EC.
  - unfold box_fits. apply forallb_axes_intro. intros c. apply orb_true_iff. right. apply Z.eqb_eq.
    rewrite (EC c). reflexivity.
Qed.
Lemma claim_free nm g : (forall n, nm = Some n -> ~ In n (g_attrs g)) -> exists g', claim_name nm g = Ok g' /\ same_physics g g'.
Proof.
  intros H. destruct nm as [n|]; cbn [claim_name]; [|eexists; split; [reflexivity|apply same_refl]].
  destruct (has_attr g n) eqn:E; [apply has_attr_In in E; exfalso; exact (H n eq_refl E)|].
  eexists. split; [reflexivity|]. repeat split.
Qed.

Lemma single_region v N : object_region N (HList [v]) (HSlice None None None) (HSlice None None None)
  = Ok ((v, 0, 0)%Z, (v + 1, Z.of_nat (N AY), Z.of_nat (N AZ))%Z).
Proof.
  unfold object_region. cbn [object_slice bind fst snd Z.ltb Z.compare].
  destruct (Z.ltb_spec (Z.of_nat (N AY)) 0); [lia|]. destruct (Z.ltb_spec (Z.of_nat (N AZ)) 0); [lia|]. reflexivity.
Qed.

(** One number selects one layer, negative numbers counting from the end, as
    long as it is not -1. *)
Lemma object_single_index v nm eps g : (forall n, nm = Some n -> ~ In n (g_attrs g)) ->
  index_ok (g_N g AX) v -> v <> (-1)%Z ->
  exists g', setitem [KNum (PInt v); full_slice; full_slice] (CObject nm eps None) g = (g', None)
  /\ forall p c, in_grid (g_N g) p ->
     (Z.of_nat (coord AX p) <> (v mod Z.of_nat (g_N g AX))%Z -> g_ie g' p c = g_ie g p c)
     /\ (Z.of_nat (coord AX p) = (v mod Z.of_nat (g_N g AX))%Z ->
         c = AX \/ (S (coord c p) < g_N g c)%nat \/ g_N g c = 1%nat -> g_ie g' p c = 1 / eps).
Proof.
  intros HN HV H1. unfold index_ok in HV. set (N := g_N g) in *.
  assert (VM : (v mod Z.of_nat (N AX))%Z = (if v <? 0 then v + Z.of_nat (N AX) else v)%Z).
  { destruct (Z.ltb_spec v 0).
    - symmetry. apply (Z.mod_unique_pos _ _ (-1)); lia.
    - apply Z.mod_small. lia. }
  set (k := (if v <? 0 then v + Z.of_nat (N AX) else v)%Z) in *.
  assert (K : (0 <= k < Z.of_nat (N AX))%Z) by (unfold k; destruct (Z.ltb_spec v 0); lia).
  assert (C1 : clip (N AX) v = Z.to_nat k) by (unfold clip, k; destruct (Z.ltb_spec v 0); [reflexivity|lia]).
  assert (C2 : clip (N AX) (v + 1) = S (Z.to_nat k)).
  { unfold clip, k in *. destruct (Z.ltb_spec v 0), (Z.ltb_spec (v + 1) 0); lia. }
  set (lo := (v, 0, 0)%Z). set (hi := (v + 1, Z.of_nat (N AY), Z.of_nat (N AZ))%Z).
  assert (CL : clip3 N lo = (Z.to_nat k, 0, 0)%nat).
  { unfold clip3, lo. cbn [zcoord]. rewrite C1. unfold clip. cbn [Z.ltb Z.compare]. rewrite !Z.min_l by lia. reflexivity. }
  assert (CH : clip3 N hi = (S (Z.to_nat k), N AY, N AZ)).
  { unfold clip3, hi. cbn [zcoord]. rewrite C2, !clip_nat by lia. reflexivity. }
  assert (EX : forall a, object_extent lo hi a = match a with AX => 1%nat | _ => N a end).
  { intros a. unfold object_extent, lo, hi. destruct a; cbn [zcoord]; lia. }
  assert (F : object_fits N lo hi = true).
  { apply fits_intro. intros a. rewrite EX. unfold region_count. rewrite <- !coord_clip3, CL, CH. destruct a; cbn [coord]; lia. }
  destruct (claim_free nm (add_object_ g) HN) as (g1 & E1 & E2).
  unfold setitem. cbn [pad_key full_slice handle_key handle_distance option_map register]. unfold register_object.
  rewrite E1. fold N. rewrite single_region. fold lo hi. rewrite F. cbn [negb].
  eexists. split; [reflexivity|]. intros p c Hp. cbn [with_material g_ie]. fold N. rewrite CL, CH, VM.
  assert (IB : in_box (Z.to_nat k, 0%nat, 0%nat) (S (Z.to_nat k), N AY, N AZ) p = true <-> Z.of_nat (coord AX p) = k).
  { rewrite in_box_spec. unfold in_cells. split.
    - intros Q. specialize (Q AX). cbn [coord] in Q. destruct p as [[? ?] ?]. cbn in Q |- *. lia.
    - intros Q a. specialize (Hp a). destruct p as [[? ?] ?]. destruct a; cbn [coord] in *; lia. }
  split.
  - intros Q. destruct (in_box _ _ p); [exfalso; apply Q, IB; reflexivity|reflexivity].
  - intros Q R. rewrite (proj2 IB Q). unfold object_ie. rewrite EX.
    rewrite coord_source_cell, EX.
    assert (G : forall n i : nat, (S i < n)%nat \/ n = 1%nat -> ((1 <? n)%nat && (S (if (n =? 1)%nat then 0 else i - 0)%nat =? n)%nat) = false).
    { intros n i Q'. destruct (Nat.ltb_spec 1 n); cbn [andb]; [|reflexivity]. destruct (Nat.eqb_spec n 1); [lia|].
      apply Nat.eqb_neq. lia. }
    destruct c; [reflexivity| |]; (destruct R as [R|R]; [discriminate|]); cbn [coord]; destruct p as [[? ?] ?]; cbn [coord] in *;
      rewrite G by exact R; reflexivity.
Qed.

(** The index -1 does not select the last layer. *)
Lemma object_last_index nm eps g : (forall n, nm = Some n -> ~ In n (g_attrs g)) -> (1 <= g_N g AX)%nat ->
  exists g' r, setitem [KNum (PInt (-1)); full_slice; full_slice] (CObject nm eps None) g = (g', r)
  /\ same_physics g g' /\ (r = if (1 <? g_N g AY)%nat || (1 <? g_N g AZ)%nat then Some RuntimeError else None).
Proof.
  intros HN HX. set (N := g_N g) in *.
  destruct (claim_free nm (add_object_ g) HN) as (g1 & E1 & E2).
  assert (E3 : same_physics g g1) by exact E2.
  unfold setitem. cbn [pad_key full_slice handle_key handle_distance option_map register]. unfold register_object.
  rewrite E1. fold N. rewrite single_region.
  set (lo := (-1, 0, 0)%Z). set (hi := (-1 + 1, Z.of_nat (N AY), Z.of_nat (N AZ))%Z).
  assert (C1 : clip (N AX) (-1) = (N AX - 1)%nat) by (unfold clip; cbn [Z.ltb Z.compare]; lia).
  assert (C2 : clip (N AX) (-1 + 1) = 0%nat) by (unfold clip; cbn; lia).
  assert (EX : forall a, object_extent lo hi a = match a with AX => 1%nat | _ => N a end).
  { intros a. unfold object_extent, lo, hi. destruct a; cbn [zcoord]; lia. }
  assert (RC : forall a, region_count N lo hi a = match a with AX => 0%nat | _ => N a end).
  { intros a. unfold region_count, lo, hi. destruct a; cbn [zcoord]; [rewrite C1, C2; lia| |];
      rewrite clip_nat by lia; unfold clip; cbn [Z.ltb Z.compare]; lia. }
  destruct ((1 <? N AY)%nat || (1 <? N AZ)%nat) eqn:B.
  - assert (F : object_fits N lo hi = false).
    { destruct (object_fits N lo hi) eqn:F; [|reflexivity]. exfalso.
      destruct (object_fits_spec _ _ _ F) as [_ X].
      apply orb_prop in B as [B|B]; apply Nat.ltb_lt in B.
      - specialize (X AY AX). rewrite !EX, RC in X. specialize (X B). discriminate.
      - specialize (X AZ AX). rewrite !EX, RC in X. specialize (X B). discriminate. }
    rewrite F. cbn [negb]. do 2 eexists. split; [reflexivity|]. split; [exact E3|reflexivity].
  - apply orb_false_iff in B as [B1 B2]. apply Nat.ltb_ge in B1, B2.
    assert (F : object_fits N lo hi = true).
    { unfold object_fits. apply andb_true_intro. split.
      - apply forallb_axes_intro. intros c. unfold border_fits. apply orb_true_iff. left. apply Nat.leb_le. rewrite EX. destruct c; lia.
      - unfold box_fits. apply forallb_axes_intro. intros c. rewrite EX. apply orb_true_iff. rewrite !Z.eqb_eq.
        destruct c; [left; reflexivity|right; apply f_equal; exact (eq_sym (RC AY))|right; apply f_equal; exact (eq_sym (RC AZ))]. }
    rewrite F. cbn [negb]. do 2 eexists. split; [reflexivity|]. split; [|reflexivity].
    destruct E3 as (X1 & X2 & X3 & X4 & X5 & X6 & X7 & X8 & X9 & X10 & X11 & X12 & X13).
    unfold same_physics. cbn [with_material g_N g_spacing g_courant g_time_step g_E g_H g_abs g_ie g_im g_steps g_sources g_boundaries g_detectors].
    repeat (split; [assumption || reflexivity|]).
    split; [|repeat (split; [assumption|]); assumption].
    apply FunctionalExtensionality.functional_extensionality. intros p. apply FunctionalExtensionality.functional_extensionality. intros c.
    destruct (in_box _ _ p) eqn:B; [|reflexivity]. apply in_box_spec in B. specialize (B AX).
    rewrite !coord_clip3 in B. fold N in B. unfold lo, hi in B. cbn [zcoord] in B. rewrite C1, C2 in B. lia.
Qed.

(** An absorbing object that raises may have changed the permittivity. *)
Lemma rejected_absorbing : exists key nm eps s g g' e p c,
  setitem key (CObject nm eps (Some s)) g = (g', Some e) /\ in_grid (g_N g) p /\ g_ie g' p c <> g_ie g p c.
Proof.
  exists [KNum (PInt 1); full_slice; KNum (PInt 0)], None, 4, 1, demo_grid. do 2 eexists. exists (1, 0, 0)%nat, AX.
  split; [reflexivity|]. split; [intros [| |]; cbn; lia|].
  apply Rlt_not_eq. change (1 / 4 < 1 / 1). lra.
Qed.

(** * Borders *)

(** A PML needs a slice that starts at the low border or is open towards the
    high one. *)
Lemma pml_refused x y z nm a g :
  (forall s, In s [x; y; z] -> match s with (lo, hi) =>
     ~ ((lo = None \/ lo = Some 0%Z) /\ exists b, hi = Some b /\ (0 < b)%Z)
     /\ ~ (hi = None /\ exists b, lo = Some b /\ (b < 0)%Z) end) ->
  (forall n, nm = Some n -> ~ In n (g_attrs g)) ->
  exists g', setitem [int_slice (fst x) (snd x); int_slice (fst y) (snd y); int_slice (fst z) (snd z)] (CPML nm a) g = (g', Some IndexError).
Proof.
  intros H HN.
  assert (HK : forall s : option Z * option Z, handle_key (g_spacing g) (int_slice (fst s) (snd s)) = HSlice (fst s) (snd s) None)
    by (intros [[?|] [?|]]; reflexivity).
  assert (HL : forall s, In s [x; y; z] -> low_slice s = None /\ high_slice s = None).
  { intros [lo hi] Hs. apply H in Hs. destruct Hs as [H1 H2]. split.
    - unfold low_slice. destruct lo as [[| |]|], hi as [b|]; try reflexivity;
        (destruct (Z.ltb_spec 0 b); [exfalso; apply H1; split; [auto|eauto]|reflexivity]).
    - unfold high_slice. destruct lo as [b|], hi; try reflexivity.
      destruct (Z.ltb_spec b 0); [exfalso; apply H2; split; [auto|eauto]|reflexivity]. }
  unfold setitem. cbn [pad_key register]. rewrite !HK. unfold register_pml. cbn [pml_slice bind].
  destruct (claim_free nm g HN) as (g1 & E1 & _). rewrite E1. cbn [bind].
  rewrite <- !surjective_pairing.
  destruct (HL x) as [X1 X2]; [cbn; tauto|]. destruct (HL y) as [Y1 Y2]; [cbn; tauto|]. destruct (HL z) as [Z1 Z2]; [cbn; tauto|].
  rewrite X1, X2, Y1, Y2, Z1, Z2.
  eexists. reflexivity.
Qed.

Lemma domain_border_small bc g : (exists a, g_N g a < 2 * bc)%nat -> domain_border_pml bc g = (g, Some IndexError).
Proof.
  intros [a H]. unfold domain_border_pml.
  replace ((g_N g AX <? bc * 2) || (g_N g AY <? bc * 2) || (g_N g AZ <? bc * 2))%nat with true; [reflexivity|].
  symmetry. rewrite !orb_true_iff, !Nat.ltb_lt. destruct a; lia.
Qed.
Lemma domain_border_zero g : exists g', domain_border_pml 0 g = (g', Some IndexError) /\ forall n, (0 < n)%nat -> forall g'', run_steps n g' <> Ok g''.
Proof.
  unfold domain_border_pml. cbn [Nat.mul Nat.ltb Nat.leb orb]. eexists. split; [reflexivity|].
  intros n Hn. apply blocked_no_run; [|exact Hn]. right. right. cbn. apply in_or_app. right. left. reflexivity.
Qed.
