(** FDTD spectra for valid configs, vacuum layers, and layouts that fail. *)
From Coq Require Import Reals ZArith String List Bool Lra Lia Psatz FunctionalExtensionality.
From Verif Require Import Base BaseLemmas PyVal Spec_Config Model_Config Proof_Config Model_Units Proof_Units Model_EpsGrid Proof_EpsGrid Model_Coeffs Spec_Coeffs Proof_Coeffs Model_FDTD Model_Register
  Spec_FDTD Spec_Register Model_Layout Spec_Layout Proof_Register Proof_Register2 Proof_Material
  Proof_FDTD Proof_Steps Proof_Reset Proof_Layout Proof_Spectrum Proof_Spectrum2.
Import ListNotations.
Open Scope R_scope.

Lemma real_items l T : Forall2 (fun v t => num_of v = Some (Fin t) /\ 0 < t) l T -> map_res real_item l = Ok T.
Proof.
  induction 1 as [|v t l T [H _] _ IH]; [reflexivity|]. cbn [map_res].
  assert (real_item v = Ok t) as -> by (unfold real_item, to_num; rewrite H; reflexivity). cbn [bind]. rewrite IH. reflexivity.
Qed.
Lemma item_num c k v0 v1 rest x : entry c k (VList (v0 :: v1 :: rest)) -> num_of v0 = Some (Fin x) -> get_item c k 0 = Ok x.
Proof.
  intros E H. unfold get_item. rewrite (proj2 (getitem_entry _ _ _) E). cbn [bind py_index nth_error].
  unfold real_item, to_num. rewrite H. reflexivity.
Qed.
Lemma item_num1 c k v0 v1 rest x : entry c k (VList (v0 :: v1 :: rest)) -> num_of v1 = Some (Fin x) -> get_item c k 1 = Ok x.
Proof.
  intros E H. unfold get_item. rewrite (proj2 (getitem_entry _ _ _) E). cbn [bind py_index nth_error].
  unfold real_item, to_num. rewrite H. reflexivity.
Qed.
Lemma int_item c k v z : entry c k v -> has_kind v KInt -> num_of v = Some (Fin (IZR z)) -> get_int c k = Ok z.
Proof.
  intros E HK H. unfold get_int. rewrite (proj2 (getitem_entry _ _ _) E). cbn [bind].
  destruct HK as [[n ->]|[b ->]]; cbn in H; inversion H as [I].
  - apply eq_IZR in I. subst. reflexivity.
  - f_equal. apply eq_IZR. destruct b; rewrite <- I; reflexivity.
Qed.
Lemma valid_int c k : valid c -> In (k, KInt) default_config_entries -> exists v z, entry c k v /\ has_kind v KInt
  /\ num_of v = Some (Fin (IZR z)) /\ get_int c k = Ok z.
Proof.
  intros (_ & _ & W & _) H. destruct (W k KInt H) as (v & E & K).
  assert (exists z, num_of v = Some (Fin (IZR z))) as [z Z].
  { destruct K as [[n ->]|[b ->]]; cbn; [eauto|]. exists (if b then 1 else 0)%Z. destruct b; reflexivity. }
  exists v, z. repeat split; auto. eapply int_item; eauto.
Qed.
Lemma positive_int c k z : valid c -> In k positive_keys -> In (k, KInt) default_config_entries -> get_int c k = Ok z -> (0 < z)%Z.
Proof.
  intros V H1 H2 G. destruct (valid_int c k V H2) as (v & z' & E & _ & N & G'). rewrite G in G'. inversion G'; subst z'.
  destruct V as (_ & _ & _ & RO). destruct (ro_pos _ RO k H1) as (v' & x & E' & N' & L).
  rewrite (entry_fun _ _ _ _ E E') in N. rewrite N in N'. inversion N'; subst. inversion L; subst. apply lt_IZR. assumption.
Qed.
Ltac indef := cbn; repeat (left; reflexivity) || (repeat (first [left; reflexivity | right])).

(** A valid config with proper numbers gives a proper simulation. *)
Lemma prepared c T w0 w1 p sx sy : valid c -> fdtd_numbers c T w0 w1 p sx sy ->
  exists c' wls f N d free,
    prepare_fdtd c = Ok (c', wls) /\ read_fdtd c' = Ok f /\ proper f /\ known_kinds f
    /\ get_int c "N_layers" = Ok (Z.of_nat N) /\ length (f_thick f) = N
    /\ (forall i, (i < N)%nat -> nth i (f_thick f) 0 = nth (if Nat.eqb (length T) 1 then 0 else i) T 0)
    /\ get_int c "N_freq" = Ok (Z.of_nat (length wls)) /\ (0 < N)%nat /\ (0 < length wls)%nat
    /\ (forall wl, In wl wls -> w0 <= wl <= w1 /\ UNIT_MAGNITUDE <= wl * f_scaling f)
    /\ (exists m, get_int c "FDTD_min_gridpoints_per_unit_magnitude" = Ok m
          /\ f_scaling f = gridpoints_per_um (Fin w0) (IZR m))
    /\ entry c "FDTD_free_space_distance" (VFloat (Fin free)) /\ f_free f = free /\ f_pml f = p
    /\ get_int c "FDTD_gridpoints_from_material_to_detector" = Ok d /\ f_det f = d
    /\ f_src_x f = sx /\ f_src_y f = sy /\ get_int c "FDTD_niter" = Ok (f_niter f) /\ (0 < f_niter f)%Z.
Proof.
  intros V FN. pose proof V as (KC & KK & WT & RO). destruct FN as [(l & EL & FL) (v0 & v1 & rest & EW & N0 & N1 & W0) EP (u0 & u1 & rest' & ES & U0 & U1)].
  destruct (ro_wl _ RO) as (v0' & v1' & rest'' & x0 & x1 & vm & m & free & vg & g & EW' & N0' & N1' & LT & NZ & EM & NM & EF & EG & NG & ROOM).
  pose proof (entry_fun _ _ _ _ EW EW') as X. inversion X; subst v0' v1' rest''; clear X.
  rewrite N0 in N0'. rewrite N1 in N1'. inversion N0'; inversion N1'; subst x0 x1; clear N0' N1'.
  assert (W01 : w0 < w1) by (inversion LT; assumption).
  destruct (valid_int c "N_freq" V ltac:(indef)) as (vn & n & En & _ & Nn & Gn).
  destruct (valid_int c "N_layers" V ltac:(indef)) as (vN & NN & EN & _ & NNN & GN).
  destruct (valid_int c "FDTD_niter" V ltac:(indef)) as (vi & ni & Ei & _ & Ni & Gi).
  destruct (valid_int c "FDTD_min_gridpoints_per_unit_magnitude" V ltac:(indef)) as (vm' & mm & EM' & _ & NM' & Gm).
  destruct (valid_int c "FDTD_gridpoints_from_material_to_detector" V ltac:(indef)) as (vd & d & Ed & _ & Nd & Gd).
  rewrite (entry_fun _ _ _ _ EM EM') in NM. rewrite NM' in NM. inversion NM; subst m; clear NM.
  rewrite (entry_fun _ _ _ _ EG Ed) in NG. rewrite Nd in NG. inversion NG as [IG]; apply eq_IZR in IG; subst g; clear NG.
  pose proof (positive_int c "N_freq" _ V ltac:(indef) ltac:(indef) Gn) as Pn.
  pose proof (positive_int c "N_layers" _ V ltac:(indef) ltac:(indef) GN) as PN.
  pose proof (positive_int c "FDTD_niter" _ V ltac:(indef) ltac:(indef) Gi) as Pi.
  pose proof (positive_int c "FDTD_min_gridpoints_per_unit_magnitude" _ V ltac:(indef) ltac:(indef) Gm) as Pm.
  pose proof (positive_int c "FDTD_gridpoints_from_material_to_detector" _ V ltac:(indef) ltac:(indef) Gd) as Pd.
  destruct (ro_pos _ RO "FDTD_free_space_distance"%string ltac:(indef)) as (vf & xf & EF' & NF & PF).
  rewrite <- (entry_fun _ _ _ _ EF EF') in NF. cbn in NF. inversion NF; subst xf. assert (0 < free) as PF' by (inversion PF; assumption).
  destruct (ro_pos _ RO "FDTD_pml_thickness"%string ltac:(indef)) as (vp & xp & EP' & NP & PP).
  rewrite <- (entry_fun _ _ _ _ EP EP') in NP. cbn in NP. inversion NP; subst xp. assert (0 < p) as PP' by (inversion PP; assumption).
  destruct (ro_dist _ RO) as (dist & Edist & Idist).
  destruct (ro_src _ RO) as (src & Esrc & Isrc). destruct (ro_pulse _ RO) as (pulse & Epulse & Ipulse).
  destruct (gfp_all w0 w1 (Z.to_nat n) dist (conj W0 W01)) as (wls & fs & GF & _ & LW & _ & _ & _ & RG).
  { cbn in Idist. intuition. }
  (* the steps *)
  assert (FP : frequency_points c = Ok (cfg_set c "target_frequencies" (VList (map (fun f => VFloat (Fin f)) fs)), wls)).
  { unfold frequency_points. rewrite (item_num _ _ _ _ _ _ EW N0), (item_num1 _ _ _ _ _ _ EW N1), Gn. cbn [bind].
    unfold get_str. rewrite (proj2 (getitem_entry _ _ _) Edist). cbn [bind]. rewrite GF. reflexivity. }
  set (c1 := cfg_set c "target_frequencies" (VList (map (fun f => VFloat (Fin f)) fs))) in *.
  assert (PREP : exists c', prepare_fdtd c = Ok (c', wls) /\ getitem c' "FDTD_grid_scaling" = Ok (VFloat (Fin (gridpoints_per_um (Fin w0) (IZR mm))))).
  { unfold prepare_fdtd. rewrite FP. cbn [bind fst snd].
    assert (exists c2, spread_thickness c1 = Ok c2 /\ forall k, k <> "PER_LAYER_THICKNESS"%string -> k <> "target_frequencies"%string -> lookup c2 k = lookup c k) as (c2 & -> & A2).
    { unfold spread_thickness, get_int, c1. rewrite !getitem_set. cbn [String.eqb Ascii.eqb Bool.eqb]. fold c1.
      rewrite (proj2 (getitem_entry _ _ _) EL). cbn [bind]. unfold get_int in GN. rewrite GN. cbn [bind].
      eexists. split; [reflexivity|]. intros k K1 K2.
      assert (lookup c1 k = lookup c k) as E.
      { unfold c1. rewrite lookup_set. destruct (String.eqb_spec "target_frequencies" k); [congruence|reflexivity]. }
      destruct (_ && _); [|exact E]. rewrite lookup_set. destruct (String.eqb_spec "PER_LAYER_THICKNESS" k); [congruence|exact E]. }
    cbn [bind].
    assert (GS : grid_scaling c2 = Ok (gridpoints_per_um (Fin w0) (IZR mm))).
    { unfold grid_scaling. assert (EW2 : entry c2 "physical_wavelength_range" (VList (v0 :: v1 :: rest))) by (unfold entry; rewrite A2 by discriminate; exact EW).
      rewrite (item_num _ _ _ _ _ _ EW2 N0). cbn [bind]. unfold get_int, getitem in *. rewrite A2 by discriminate. rewrite Gm. cbn [bind].
      assert (Reqb (w0 * (1 / 10)) 0 = false) as ->. { unfold Reqb. destruct (Req_EM_T (w0 * (1/10)) 0); [lra|reflexivity]. }
      f_equal. unfold gridpoints_per_um. f_equal. unfold UNIT_MAGNITUDE. field. lra. }
    rewrite GS. cbn [bind]. eexists. split; [reflexivity|]. rewrite getitem_set. reflexivity. }
  destruct PREP as (c' & PREP & SC). destruct (prepare_inv _ _ _ PREP) as (AG & (l' & NN' & EL' & GN' & TH) & _).
  pose proof (entry_fun _ _ _ _ EL' EL) as X; inversion X; subst l'; clear X. assert (GN2 := GN). rewrite GN2 in GN'. inversion GN'; subst NN'; clear GN' EL'.
  destruct (ro_len _ RO) as (ll & vv & nn & E1 & E2 & E3 & LEN). pose proof (entry_fun _ _ _ _ E1 EL) as X. inversion X; subst ll; clear X.
  rewrite (entry_fun _ _ _ _ E2 EN) in E3. rewrite NNN in E3. inversion E3 as [I3]; apply eq_IZR in I3; subst nn; clear E1 E2 E3.
  assert (LT' : length l = length T) by (clear - FL; induction FL; cbn; congruence).
  set (T' := if Nat.eqb (length l) 1 && (1 <? NN)%Z then concat (repeat T (Z.to_nat NN)) else T).
  assert (FT : Forall2 (fun v t => num_of v = Some (Fin t) /\ 0 < t) (if Nat.eqb (length l) 1 && (1 <? NN)%Z then concat (repeat l (Z.to_nat NN)) else l) T').
  { unfold T'. destruct (_ && _); [|exact FL]. clear - FL. induction (Z.to_nat NN) as [|k IH]; [constructor|]. cbn [repeat concat]. apply Forall2_app; [exact FL|exact IH]. }
  assert (EP2 : forall k v, entry c k v -> in_strings k ["target_frequencies"; "PER_LAYER_THICKNESS"; "FDTD_grid_scaling"]%string = false -> getitem c' k = Ok v).
  { intros k v E Hk. assert (~ In k ["target_frequencies"; "PER_LAYER_THICKNESS"; "FDTD_grid_scaling"]%string) as Hk' by (rewrite <- in_strings_iff, Hk; discriminate). apply getitem_entry. unfold entry. rewrite (AG k Hk'). exact E. }
  assert (GI2 : forall k z, get_int c k = Ok z -> in_strings k ["target_frequencies"; "PER_LAYER_THICKNESS"; "FDTD_grid_scaling"]%string = false -> get_int c' k = Ok z).
  { intros k z E Hk. assert (~ In k ["target_frequencies"; "PER_LAYER_THICKNESS"; "FDTD_grid_scaling"]%string) as Hk' by (rewrite <- in_strings_iff, Hk; discriminate). unfold get_int, getitem in *. rewrite (AG k Hk'). exact E. }
  set (f := mkFcfg (gridpoints_per_um (Fin w0) (IZR mm)) p free T' d sx sy pulse src ni (Z.to_nat mm)).
  assert (READ : read_fdtd c' = Ok f).
  { unfold read_fdtd, get_real, get_reals, get_str. rewrite SC. cbn [bind to_num num_of finite].
    rewrite (EP2 _ _ EP eq_refl). cbn [bind to_num num_of finite].
    rewrite (EP2 _ _ EF eq_refl). cbn [bind to_num num_of finite].
    rewrite (proj2 (getitem_entry _ _ _) TH). cbn [bind]. rewrite (real_items _ _ FT). cbn [bind].
    rewrite (GI2 _ _ Gd eq_refl). cbn [bind].
    assert (ES' : entry c' "FDTD_source_position" (VList (u0 :: u1 :: rest'))) by (apply getitem_entry, EP2; [exact ES|reflexivity]).
    rewrite (item_num _ _ _ _ _ _ ES' U0), (item_num1 _ _ _ _ _ _ ES' U1). cbn [bind].
    rewrite (EP2 _ _ Epulse eq_refl). cbn [bind].
    rewrite (EP2 _ _ Esrc eq_refl). cbn [bind].
    rewrite (GI2 _ _ Gi eq_refl). cbn [bind].
    rewrite (GI2 _ _ Gm eq_refl). reflexivity. }
  assert (SP : 0 < gridpoints_per_um (Fin w0) (IZR mm)) by (apply gp_nonneg, IZR_lt; exact Pm).
  assert (LENT : length T' = Z.to_nat NN /\ forall i, (i < Z.to_nat NN)%nat -> nth i T' 0 = nth (if Nat.eqb (length T) 1 then 0 else i) T 0).
  { unfold T'. rewrite <- LT'. destruct (Nat.eqb_spec (length l) 1) as [L1|L1]; cbn [andb].
    - destruct T as [|t [|]]; try (cbn in LT'; lia). destruct (Z.ltb_spec 1 NN).
      + split; [rewrite length_concat_repeat; cbn [length]; lia|]. intros i Hi. cbn [nth].
        assert (E : concat (repeat [t] (Z.to_nat NN)) = repeat t (Z.to_nat NN)).
        { clear. induction (Z.to_nat NN) as [|k IH]; [reflexivity|]. cbn. rewrite IH. reflexivity. }
        rewrite E. apply nth_repeat_lt. exact Hi.
      + split; [cbn; lia|]. intros i Hi. replace i with 0%nat by lia. reflexivity.
    - split; [|reflexivity]. rewrite <- LT'. lia. }
  exists c', wls, f, (Z.to_nat NN), d, free. rewrite !Z2Nat.id by lia.
  split; [exact PREP|]. split; [exact READ|].
  split. { constructor; cbn; try assumption; try lia.
    - clear - FT. induction FT as [|? ? ? ? [_ ?]]; constructor; assumption. }
  split. { split; cbn; cbn in Isrc, Ipulse; intuition. }
  split; [exact GN|]. split; [exact (proj1 LENT)|]. split; [exact (proj2 LENT)|].
  split. { rewrite LW, Z2Nat.id by lia. exact Gn. }
  split; [lia|]. split; [lia|].
  split. { intros wl Hw. apply (In_nth _ _ 0) in Hw as (i & Hi & <-). specialize (RG i ltac:(lia)). split; [exact RG|].
    cbn [f_scaling f]. unfold gridpoints_per_um.
    apply Rle_trans with (w0 * (/ 1000000 / (w0 / 10))).
    - unfold UNIT_MAGNITUDE. replace (w0 * (/ 1000000 / (w0 / 10))) with (10 * / 1000000) by (field; lra). lra.
    - pose proof (Rmax_l (/ 1000000 / (w0 / 10)) (IZR mm)).
      assert (0 < / 1000000 / (w0 / 10)) by (apply Rdiv_lt_0_compat; lra).
      apply Rmult_le_compat; lra. }
  split; [exists mm; split; [exact Gm|reflexivity]|]. cbn. repeat split; auto.
Qed.
