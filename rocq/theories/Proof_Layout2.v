(** What a simulation or a spectrum raises when something is missing. *)
From Coq Require Import Reals ZArith String List Bool Lra Lia.
From Verif Require Import Base BaseLemmas PyVal Model_Units Model_EpsGrid Model_Coeffs Model_FDTD Model_Register
  Spec_FDTD Spec_Register Model_Layout Spec_Layout Proof_Register Proof_Register2 Proof_Material Proof_Index Proof_Signal
  Proof_FDTD Proof_Steps Proof_Reset Proof_Layout.
Import ListNotations.
Open Scope R_scope.

Lemma add_layers_missing c freq : proper c -> forall eps i g,
  g_N g AX = columns c -> g_N g AY = 3%nat -> g_N g AZ = 1%nat -> (i < length (f_thick c))%nat -> (length (f_thick c) < i + length eps)%nat ->
  add_layers (f_scaling c) (f_thick c) freq i (layer_begin c i) (layer_begin c (S i)) eps g = Err IndexError.
Proof.
  intros P. induction eps as [|e r IH]; intros i g NX NY NZ HI HE; [cbn in HE; lia|].
  cbn [add_layers]. rewrite !edge_trunc by exact P.
  pose proof (edge_mono c i P) as M. pose proof (edge_le_end c (S i) P) as M2. pose proof (end_in_columns c P) as M3.
  destruct (add_object_ok (edge c i) (edge c (S i)) e freq g ltac:(lia)) as [g1 E1]. rewrite E1. cbn [bind].
  destruct (add_object_spec (edge c i) (edge c (S i)) e freq g g1 NY NZ ltac:(lia) E1) as [(FN & _) _].
  destruct r as [|e2 r]; [cbn in HE; lia|].
  rewrite (get_some _ i 0) by lia. cbn [bind].
  destruct (Nat.ltb_spec (S i) (length (f_thick c))) as [L|L].
  - rewrite (get_some _ (S i) 0) by lia. cbn [bind]. rewrite <- !layer_begin_S by lia.
    apply IH; try (rewrite FN; assumption); try assumption. cbn [length] in *. lia.
  - unfold get at 1. assert (nth_error (f_thick c) (S i) = None) as -> by (apply nth_error_None; lia). reflexivity.
Qed.

Lemma missing_thickness c slice wl row layers : proper c -> 1 <= f_scaling c * f_pml c -> known_kinds c -> 0 < wl ->
  get slice 0 = Ok row -> get row 0 = Ok layers -> (length (f_thick c) < length layers)%nat ->
  init_fdtd c (Some slice) wl = Err IndexError.
Proof.
  intros P H1 HK Hw HR HL HE. destruct (source_ok c wl P HK Hw) as (src & HS & E).
  rewrite (init_split c (Some slice) wl P H1), E. cbn [bind]. cbv zeta.
  destruct (Nat.eqb_spec (length (f_thick c)) 0) as [T0|T0].
  { destruct (f_thick c); [reflexivity|discriminate]. }
  assert (T1 : (0 < length (f_thick c))%nat) by lia.
  rewrite (get_some _ 0 0) by exact T1. cbn [bind]. rewrite HR. cbn [bind]. rewrite HL. cbn [bind].
  assert (B0 : f_pml c + f_free c = layer_begin c 0) by (unfold layer_begin; cbn; lra).
  rewrite B0, <- layer_begin_S by exact T1.
  apply add_layers_missing; try reflexivity; try assumption. 
Qed.

(** The first wavelength that fails decides. *)
Lemma spectra_first f : forall wls i eps k e, (k < length wls)%nat ->
  (forall j wl, (j < k)%nat -> nth_error wls j = Some wl -> exists slice tr, nth_error eps (i + j) = Some slice /\ one_wavelength f wl slice = Ok tr) ->
  (nth_error eps (i + k) = None /\ e = IndexError \/ exists wl slice, nth_error wls k = Some wl /\ nth_error eps (i + k) = Some slice /\ one_wavelength f wl slice = Err e) ->
  spectra f wls i eps = Err e.
Proof.
  induction wls as [|wl wls IH]; intros i eps k e Hk Hb He; [cbn in Hk; lia|]. cbn [spectra]. destruct k as [|k].
  - rewrite Nat.add_0_r in He. destruct He as [[He ->]|(wl' & slice & E1 & E2 & E3)].
    + unfold get. rewrite He. reflexivity.
    + cbn in E1. injection E1 as <-. unfold get. rewrite E2. cbn [bind]. rewrite E3. reflexivity.
  - destruct (Hb 0%nat wl ltac:(lia) eq_refl) as (slice & tr & E1 & E2). rewrite Nat.add_0_r in E1. unfold get. rewrite E1. cbn [bind]. rewrite E2. cbn [bind].
    rewrite (IH (S i) eps k e); [reflexivity| cbn in Hk; lia| |].
    + intros j wl' Hj Ej. destruct (Hb (S j) wl' ltac:(lia) Ej) as (s2 & tr2 & F1 & F2). exists s2, tr2. replace (S i + j)%nat with (i + S j)%nat by lia. auto.
    + replace (S i + k)%nat with (i + S k)%nat by lia. exact He.
Qed.

Lemma spectrum_first eps c c' wls f k e : prepare_fdtd c = Ok (c', wls) -> read_fdtd c' = Ok f -> (k < length wls)%nat ->
  (forall j wl, (j < k)%nat -> nth_error wls j = Some wl -> exists slice tr, nth_error eps j = Some slice /\ one_wavelength f wl slice = Ok tr) ->
  (nth_error eps k = None /\ e = IndexError \/ exists wl slice, nth_error wls k = Some wl /\ nth_error eps k = Some slice /\ one_wavelength f wl slice = Err e) ->
  compute_spectrum_fdtd eps c = Err e.
Proof.
  intros P R Hk Hb He. unfold compute_spectrum_fdtd. rewrite P. cbn [bind fst snd]. rewrite R. cbn [bind].
  rewrite (spectra_first f wls 0 eps k e Hk Hb He). reflexivity.
Qed.
