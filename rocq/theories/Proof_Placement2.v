(** Objects: steps, and absorbing objects at a single index. *)
From Coq Require Import Reals ZArith String List Bool Lra Lia.
From Verif Require Import Base BaseLemmas Model_Units Model_FDTD Model_Register Spec_FDTD Spec_Register Proof_Torus Proof_FDTD Proof_Steps Proof_Register Proof_Register2 Proof_Material Proof_PML Proof_Placement.
Import ListNotations.
Open Scope R_scope.

Lemma object_slice_err n k e : object_slice n k = Err e -> e = IndexError.
Proof.
  destruct k as [[|v [|w l]]|a b s]; cbn [object_slice]; try congruence.
  destruct (match s with Some v => negb (v =? 1)%Z | None => false end); congruence.
Qed.
Lemma object_step n a b s : s <> 1%Z -> object_slice n (HSlice a b (Some s)) = Err IndexError.
Proof. intros H. cbn [object_slice]. destruct (Z.eqb_spec s 1); [contradiction|reflexivity]. Qed.

Lemma object_step_refused x y z a b s nm eps cond g :
  In (KSlice a b (Some (PInt s))) [x; y; z] -> s <> 1%Z ->
  (forall n, nm = Some n -> ~ In n (g_attrs g)) ->
  exists g', setitem [x; y; z] (CObject nm eps cond) g = (g', Some IndexError) /\ same_physics g g'.
Proof.
  intros HI Hs HN. destruct (claim_free nm (add_object_ g) HN) as (g1 & E1 & E2).
  unfold setitem. cbn [pad_key register]. unfold register_object. rewrite E1.
  enough (Q : object_region (g_N g) (handle_key (g_spacing g) x) (handle_key (g_spacing g) y) (handle_key (g_spacing g) z) = Err IndexError).
  { rewrite Q. exists g1. split; [reflexivity|]. exact E2. }
  unfold object_region.
  destruct (object_slice (g_N g AX) (handle_key (g_spacing g) x)) as [rx|e] eqn:Ex; cbn [bind]; [|rewrite (object_slice_err _ _ _ Ex); reflexivity].
  destruct (object_slice (g_N g AY) (handle_key (g_spacing g) y)) as [ry|e] eqn:Ey; cbn [bind]; [|rewrite (object_slice_err _ _ _ Ey); reflexivity].
  destruct (object_slice (g_N g AZ) (handle_key (g_spacing g) z)) as [rz|e] eqn:Ez; cbn [bind]; [|rewrite (object_slice_err _ _ _ Ez); reflexivity].
  exfalso. destruct HI as [->|[->|[->|[]]]]; cbn [handle_key option_map handle_distance] in *.
  - rewrite object_step in Ex by exact Hs. discriminate.
  - rewrite object_step in Ey by exact Hs. discriminate.
  - rewrite object_step in Ez by exact Hs. discriminate.
Qed.

Lemma absorbing_single_index v nm eps s g : (forall n, nm = Some n -> ~ In n (g_attrs g)) ->
  index_ok (g_N g AX) v -> v <> (-1)%Z ->
  exists g', setitem [KNum (PInt v); full_slice; full_slice] (CObject nm eps (Some s)) g = (g', None)
  /\ forall p c, in_grid (g_N g) p ->
     (Z.of_nat (coord AX p) <> (v mod Z.of_nat (g_N g AX))%Z -> g_abs g' p c = g_abs g p c)
     /\ (Z.of_nat (coord AX p) = (v mod Z.of_nat (g_N g AX))%Z ->
         g_abs g' p c = / 2 * g_courant g * g_ie g' p c * s * g_spacing g * ETA_0).
Proof.
  intros HN HV H1. unfold index_ok in HV. set (N := g_N g) in *.
  assert (VM : (v mod Z.of_nat (N AX))%Z = (if v <? 0 then v + Z.of_nat (N AX) else v)%Z).
  { destruct (Z.ltb_spec v 0).
    - symmetry. apply (Z.mod_unique_pos _ _ (-1)); lia.
    - apply Z.mod_small. lia. }
  set (k := (if v <? 0 then v + Z.of_nat (N AX) else v)%Z) in *.
  assert (K : (0 <= k < Z.of_nat (N AX))%Z) by (unfold k; destruct (Z.ltb_spec v 0); lia).
  assert (C1 : clip (N AX) v = Z.to_nat k) by (unfold clip, k; destruct (Z.ltb_spec v 0); [reflexivity|lia]).
  assert (C2 : clip (N AX) (v + 1) = S (Z.to_nat k)).
  { unfold clip, k in *. destruct (Z.ltb_spec v 0), (Z.ltb_spec (v + 1) 0); lia. }
  set (lo := (v, 0, 0)%Z). set (hi := (v + 1, Z.of_nat (N AY), Z.of_nat (N AZ))%Z).
  assert (CL : clip3 N lo = (Z.to_nat k, 0, 0)%nat).
  { unfold clip3, lo. cbn [zcoord]. rewrite C1. unfold clip. cbn [Z.ltb Z.compare]. rewrite !Z.min_l by lia. reflexivity. }
  assert (CH : clip3 N hi = (S (Z.to_nat k), N AY, N AZ)).
  { unfold clip3, hi. cbn [zcoord]. rewrite C2, !clip_nat by lia. reflexivity. }
  assert (EX : forall a, object_extent lo hi a = match a with AX => 1%nat | _ => N a end).
  { intros a. unfold object_extent, lo, hi. destruct a; cbn [zcoord]; lia. }
  assert (F : object_fits N lo hi = true).
  { apply fits_intro. intros a. rewrite EX. unfold region_count. rewrite <- !coord_clip3, CL, CH. destruct a; cbn [coord]; lia. }
  assert (RV : resolve (N AX) v = Ok (Z.to_nat k)).
  { unfold resolve, k in *. destruct (Z.ltb_spec v 0), (Z.leb_spec 0 v); try lia; cbn [andb].
    - destruct (Z.leb_spec (- Z.of_nat (N AX)) v); [reflexivity|lia].
    - destruct (Z.ltb_spec v (Z.of_nat (N AX))); [reflexivity|lia]. }
  destruct (claim_free nm (add_object_ g) HN) as (g1 & E1 & E2).
  unfold setitem. cbn [pad_key full_slice handle_key handle_distance option_map register]. unfold register_object.
  rewrite E1. fold N. rewrite single_region. fold lo hi. rewrite F. cbn [negb].
  assert (AF : absorb_fits N (HList [v]) (HSlice None None None) (HSlice None None None) (object_extent lo hi) = true).
  { unfold absorb_fits. cbn [is_list]. rewrite !EX. cbn [raw_count]. rewrite !Nat.sub_0_r, !Nat.eqb_refl, !orb_true_r. reflexivity. }
  rewrite AF. cbn [negb]. unfold raw_region. cbn [raw_range]. rewrite RV. cbn [bind fst snd].
  eexists. split; [reflexivity|]. intros p c Hp. cbn [with_material g_ie g_abs]. fold N. rewrite CL, CH, VM.
  assert (IB : in_box (Z.to_nat k, 0%nat, 0%nat) (S (Z.to_nat k), N AY, N AZ) p = true <-> Z.of_nat (coord AX p) = k).
  { rewrite in_box_spec. unfold in_cells. split.
    - intros Q. specialize (Q AX). cbn [coord] in Q. destruct p as [[? ?] ?]. cbn in Q |- *. lia.
    - intros Q a. specialize (Hp a). destruct p as [[? ?] ?]. destruct a; cbn [coord] in *; lia. }
  split.
  - intros Q. destruct (in_box _ _ p); [exfalso; apply Q, IB; reflexivity|reflexivity].
  - intros Q. rewrite (proj2 IB Q). reflexivity.
Qed.
