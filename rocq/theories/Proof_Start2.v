(** The first evaluation of the model after the start of a training run (C63). *)
From Coq Require Import Reals ZArith String List Bool Lra Lia.
From Verif Require Import Base BaseLemmas Cplx PyVal Model_Config Spec_Config Proof_Config Model_Materials Spec_Materials Proof_Materials
  Model_EpsGrid Spec_EpsGrid Proof_EpsGrid Props_EpsGrid
  Model_Units Model_Layout Proof_Spectrum2 Spec_Dispatch Proof_Dispatch2 Model_Networks Spec_Networks Proof_Networks Proof_Networks2
  Model_Start Spec_Start Proof_Start.
Import ListNotations.
Open Scope R_scope.
Open Scope string_scope.

Lemma kept_all (files : list mfile) : kept files [] = files.
Proof. unfold kept. induction files as [|f l IH]; cbn; [reflexivity|]. f_equal. exact IH. Qed.

Lemma collection_full files freqs : good_files files -> (2 <= length freqs)%nat ->
  exists mc rows, MaterialCollection files freqs [] = Ok mc /\ length (material_names mc) = length files
    /\ epsilon_matrix mc = T2 rows /\ length rows = length files /\ forall v, In v rows -> length v = length freqs.
Proof.
  intros [HN HT] Hf. unfold MaterialCollection. destruct (load_files_ok files freqs [] HT) as [loaded El]. rewrite El. cbn [bind].
  destruct (load_files_spec _ _ _ _ El) as [Hn Hi]. rewrite kept_all in Hn, Hi.
  assert (Ll : length loaded = length files) by (rewrite <- (map_length fst loaded), Hn, map_length; reflexivity).
  assert (LV : forall v, In v (map snd loaded) -> length v = length freqs).
  { intros v Hv. apply in_map_iff in Hv. destruct Hv as [[nm es] [<- Hv]]. apply In_nth_error in Hv. destruct Hv as [i Hv].
    destruct (nth_error files i) as [[name table]|] eqn:Ef.
    - destruct (Hi i name table Ef) as [es' [E1 E2]]. rewrite E1 in Hv. injection Hv as <- <-. apply load_data_spec in E2. apply E2.
    - apply nth_error_None in Ef. assert (nth_error loaded i <> None) by congruence. apply nth_error_Some in H. lia. }
  destruct freqs as [|f0 fr] eqn:Efr; [cbn in Hf; lia|]. rewrite <- Efr in *.
  assert (S : stack_squeeze (map snd loaded) = Ok (T2 (map snd loaded))).
  { destruct loaded as [|[n1 v1] [|[n2 v2] l]]; [cbn in Ll; lia|cbn in Ll; lia|].
    cbn [map snd]. cbn [map snd] in LV. pose proof (LV v1 (or_introl eq_refl)) as L1.
    unfold stack_squeeze. destruct v1 as [|z [|z' v1]]; [reflexivity|cbn in L1; lia|reflexivity]. }
  rewrite S. cbn [bind]. eexists. exists (map snd loaded). split; [reflexivity|]. cbn [material_names epsilon_matrix]. rewrite !map_length. auto.
Qed.

(** * Reading the settings *)
Section reading.
Variables (c : config) (s : settings).
Hypothesis Ho : holds c s.

Lemma holds_same c' : (forall k, ~ In k start_keys -> lookup c' k = lookup c k) -> holds c' s.
Proof.
  intros L. assert (N : forall k x, ~ In k start_keys -> entry_num c k x -> entry_num c' k x).
  { intros k x N [v [E1 E2]]. exists v. unfold entry. rewrite L by exact N. auto. }
  destruct Ho. split; unfold entry in *; try (rewrite L by (cbn; intuition discriminate); assumption);
  try (apply N; [cbn; intuition discriminate|assumption]).
  destruct h_thickness as [l [E1 E2]]. exists l. unfold entry. rewrite L by (cbn; intuition discriminate). auto.
Qed.

Lemma get_str_entry k x : entry c k (VStr x) -> get_str c k = Ok x.
Proof. intros H. unfold get_str. rewrite (proj2 (getitem_entry _ _ _) H). reflexivity. Qed.
Hypothesis W : well_typed c.

Lemma get_nat_wt k z : In k integer_keys -> entry_num c k (IZR z) -> get_nat c k = Ok (Z.to_nat z).
Proof. intros I H. unfold get_nat. rewrite (get_int_wt c k z W I H). reflexivity. Qed.

Definition net_of (out : Z) : net_cfg :=
  mkNetCfg (t_model s) (t_type s) (t_enc s) out (t_n s)
    (if String.eqb (t_model s) "nerf" || String.eqb (t_model s) "siren" then t_h s else 0%Z) (t_omega s)
    (Z.to_nat (t_Nx s)) (Z.to_nat (t_Ny s)) (Z.to_nat (t_Nl s)) (Z.to_nat (t_Nf s)) (t_rmin s) (t_rmax s) (t_imin s) (t_imax s).

Lemma read_net_holds out : entry c "out_features" (VInt out) -> read_net c = Ok (net_of out).
Proof.
  intros Eo. unfold read_net. destruct Ho.
  rewrite (get_str_entry _ _ h_model). cbn [bind]. rewrite (get_str_entry _ _ h_type). cbn [bind].
  rewrite (get_int_wt c _ (t_enc s) W); [|cbn; tauto|assumption]. cbn [bind].
  assert (E : get_int c "out_features" = Ok out) by (unfold get_int; rewrite (proj2 (getitem_entry _ _ _) Eo); reflexivity).
  rewrite E. cbn [bind]. rewrite (get_int_wt c _ (t_n s) W); [|cbn; tauto|assumption]. cbn [bind].
  assert (Eh : get_int c "hidden_layers" = Ok (t_h s)) by (unfold get_int; rewrite (proj2 (getitem_entry _ _ _) h_h); reflexivity).
  rewrite Eh. rewrite (get_real_num _ _ _ h_omega).
  rewrite (get_nat_wt "Nx" (t_Nx s)), (get_nat_wt "Ny" (t_Ny s)), (get_nat_wt "N_layers" (t_Nl s)), (get_nat_wt "N_freq" (t_Nf s)) by (assumption || (cbn; tauto)).
  rewrite (get_real_num _ _ _ h_rmin), (get_real_num _ _ _ h_rmax), (get_real_num _ _ _ h_imin), (get_real_num _ _ _ h_imax).
  unfold net_of. destruct (String.eqb (t_model s) "nerf" || String.eqb (t_model s) "siren"); reflexivity.
Qed.

Definition eps_of (az an : bool) (nm : nat) (fs : list R) (m : tens) : eps_cfg :=
  {| e_type := t_type s; e_model_type := t_model s; e_Nx := Z.to_nat (t_Nx s); e_Ny := Z.to_nat (t_Ny s); e_os := Z.to_nat (t_os s);
     e_N_layers := Z.to_nat (t_Nl s); e_N_freq := Z.to_nat (t_Nf s); e_N_materials := nm; e_target_frequencies := fs;
     e_freq_distribution := t_dist s; e_thickness := t_thickness s;
     e_rmin := t_rmin s; e_rmax := t_rmax s; e_imin := t_imin s; e_imax := t_imax s;
     e_avoid_zero := az; e_add_noise := an; e_noise_scale := t_noise s; e_epsilon_matrix := m |}.

Lemma read_eps_holds fs mats : lookup c "target_frequencies" = Some (VList (map (fun f => VFloat (Fin f)) fs)) ->
  t_type s = "regression" \/ t_type s = "classification" /\ (exists mc, mats = Some mc /\ entry c "N_materials" (VInt (Z.of_nat (length (material_names mc))))) ->
  exists az an, read_eps c mats = Ok (eps_of az an
    (match mats with Some mc => if String.eqb (t_type s) "classification" then length (material_names mc) else 0 | None => 0 end)%nat fs
    (match mats with Some mc => if String.eqb (t_type s) "classification" then epsilon_matrix mc else T1 [] | None => T1 [] end)).
Proof.
  intros Ef Ht. unfold read_eps. pose proof Ho as [].
  rewrite (get_str_entry _ _ h_type). cbn [bind]. rewrite (get_str_entry _ _ h_model). cbn [bind].
  rewrite (get_nat_wt "Nx" (t_Nx s)), (get_nat_wt "Ny" (t_Ny s)), (get_nat_wt "eps_oversampling" (t_os s)), (get_nat_wt "N_layers" (t_Nl s)), (get_nat_wt "N_freq" (t_Nf s)) by (assumption || (cbn; tauto)).
  cbn [bind].
  assert (Efs : get_reals c "target_frequencies" = Ok fs).
  { apply get_reals_nums. exists (map (fun f => VFloat (Fin f)) fs). split; [exact Ef|]. clear. unfold numbers. induction fs; cbn; constructor; auto. }
  rewrite Efs. rewrite (get_str_entry _ _ h_dist). rewrite (get_reals_nums _ _ _ h_thickness).
  rewrite (get_real_num _ _ _ h_rmin), (get_real_num _ _ _ h_rmax), (get_real_num _ _ _ h_imin), (get_real_num _ _ _ h_imax), (get_real_num _ _ _ h_noise).
  destruct (W "avoid_zero_eps" KBool) as [az [Eaz _]]; [cbn; tauto|]. destruct (W "add_noise" KBool) as [an [Ean _]]; [cbn; tauto|].
  rewrite (proj2 (getitem_entry _ _ _) Eaz), (proj2 (getitem_entry _ _ _) Ean).
  exists (truthy az), (truthy an). unfold eps_of. destruct Ht as [->|[-> [mc [-> Em]]]].
  - cbn. destruct mats; reflexivity.
  - assert (E : get_nat c "N_materials" = Ok (length (material_names mc))).
    { unfold get_nat, get_int. rewrite (proj2 (getitem_entry _ _ _) Em). cbn. rewrite Nat2Z.id. reflexivity. }
    rewrite E. reflexivity.
Qed.

Hypothesis R : Spec_Config.ranges_ok c.
Lemma pos_int k z : In k positive_keys -> entry_num c k (IZR z) -> (0 < z)%Z.
Proof.
  intros I [v [E1 E2]]. destruct (ro_pos _ R k I) as [v' [x [E3 [E4 Hx]]]].
  pose proof (entry_fun _ _ _ _ E1 E3). subst v'. rewrite E2 in E4. injection E4 as <-. inversion Hx. apply lt_IZR. assumption.
Qed.
Lemma num_fun k x y : entry_num c k x -> (exists v, entry c k v /\ num_of v = Some (Fin y)) -> x = y.
Proof. intros [v [E1 E2]] [v' [E3 E4]]. pose proof (entry_fun _ _ _ _ E1 E3). subst v'. rewrite E2 in E4. injection E4 as <-. reflexivity. Qed.

Lemma sizes : (0 < t_n s)%Z /\ (0 < t_Nx s)%Z /\ (0 < t_Ny s)%Z /\ (0 < t_os s)%Z /\ (0 < t_Nl s)%Z /\ (0 < t_Nf s)%Z
  /\ (exists q, t_Nx s = q * t_os s)%Z /\ (exists q, t_Ny s = q * t_os s)%Z
  /\ (t_dist s = "linear" \/ t_dist s = "log")
  /\ (Z.of_nat (length (t_thickness s)) = t_Nl s \/ length (t_thickness s) = 1%nat).
Proof.
  pose proof Ho as [].
  split; [eapply pos_int; [|exact h_n]; cbn; tauto|]. split; [eapply pos_int; [|exact h_Nx]; cbn; tauto|].
  split; [eapply pos_int; [|exact h_Ny]; cbn; tauto|]. split; [eapply pos_int; [|exact h_os]; cbn; tauto|].
  split; [eapply pos_int; [|exact h_Nl]; cbn; tauto|]. split; [eapply pos_int; [|exact h_Nf]; cbn; tauto|].
  split; [|split; [|split]].
  - destruct (ro_nx _ R) as (vn & vo & n & o & q & E1 & E2 & N1 & N2 & Q). exists q.
    rewrite (eq_IZR _ _ (num_fun "Nx" _ (IZR n) h_Nx (ex_intro _ vn (conj E1 N1)))).
    rewrite (eq_IZR _ _ (num_fun "eps_oversampling" _ (IZR o) h_os (ex_intro _ vo (conj E2 N2)))). exact Q.
  - destruct (ro_ny _ R) as (vn & vo & n & o & q & E1 & E2 & N1 & N2 & Q). exists q.
    rewrite (eq_IZR _ _ (num_fun "Ny" _ (IZR n) h_Ny (ex_intro _ vn (conj E1 N1)))).
    rewrite (eq_IZR _ _ (num_fun "eps_oversampling" _ (IZR o) h_os (ex_intro _ vo (conj E2 N2)))). exact Q.
  - destruct (ro_dist _ R) as [x [E1 E2]]. pose proof (entry_fun _ _ _ _ E1 h_dist) as E. injection E as ->.
    destruct E2 as [<-|[<-|[]]]; auto.
  - destruct (ro_len _ R) as (l & vn & n & E1 & E2 & N2 & Q). destruct h_thickness as [l' [E1' F]].
    pose proof (entry_fun _ _ _ _ E1 E1') as E. injection E as ->. unfold numbers in F.
    assert (Ll : length l' = length (t_thickness s)) by (clear -F; induction F; cbn; auto).
    rewrite (eq_IZR _ _ (num_fun "N_layers" _ (IZR n) h_Nl (ex_intro _ vn (conj E2 N2)))). rewrite <- Ll. exact Q.
Qed.
End reading.

Lemma multiple_nat n o q : (0 < o)%Z -> (n = q * o)%Z -> (Z.to_nat n mod Z.to_nat o = 0)%nat.
Proof.
  intros Po E. destruct (Z_lt_le_dec n 0) as [N|N]; [replace (Z.to_nat n) with 0%nat by lia; apply Nat.mod_0_l; lia|].
  rewrite <- Z2Nat.inj_mod by lia. rewrite E, Z_mod_mult. reflexivity.
Qed.

(** * The start succeeds and the model fits *)
Section first.
Variables (d : draws) (files : list mfile) (c : config) (w : list (option pyfloat)) (s : settings).
Hypothesis V : validate_config c = Ok w.
Hypothesis Ho : holds c s.

Lemma frequencies_ok : exists fs, frequency_points c = Ok (cfg_set c "target_frequencies" (VList (map (fun f => VFloat (Fin f)) fs)), map (fun f => wl_to_phys_wl (freq_to_wl f)) fs)
  /\ length fs = Z.to_nat (t_Nf s).
Proof.
  destruct (validate_sound _ _ V) as (_ & _ & W & R). pose proof (sizes c s Ho R) as (_ & _ & _ & _ & _ & _ & _ & _ & Hd & _).
  pose proof Ho as []. unfold frequency_points, get_item. destruct h_wl as (v0 & v1 & rest & E & N0 & N1).
  rewrite (proj2 (getitem_entry _ _ _) E). cbn [bind py_index nth_error]. rewrite (real_item_num _ _ N0). cbn [bind].
  rewrite (real_item_num _ _ N1). cbn [bind]. rewrite (get_int_wt c "N_freq" (t_Nf s) W); [|cbn; tauto|assumption]. cbn [bind].
  rewrite (get_str_entry _ _ _ h_dist). cbn [bind]. unfold get_frequency_points.
  destruct (compute_target_frequencies (t_w0 s) (t_w1 s) (Z.to_nat (t_Nf s)) (t_dist s)) as [fs|e] eqn:Et.
  - cbn [bind fst snd]. exists fs. split; [reflexivity|]. exact (frequencies_length _ _ _ _ _ Et).
  - exfalso. unfold compute_target_frequencies in Et. cbv zeta in Et. destruct Hd as [Hd|Hd]; rewrite Hd in Et; cbn in Et; discriminate.
Qed.

Lemma init_works out : trainable s -> (0 <= out)%Z -> works (net_of s out) /\ exists m, init_network d (net_of s out) = Ok m.
Proof.
  intros (He & _ & Hm) Po. destruct (validate_sound _ _ V) as (_ & _ & W & R).
  pose proof (sizes c s Ho R) as (Pn & _).
  assert (Wk : works (net_of s out)).
  { unfold works, net_of. cbn. split; [exact He|]. split; [exact Pn|]. destruct Hm as [[-> Hm]|[-> Hm]]; cbn; [left|right]; auto. }
  split; [exact Wk|]. unfold init_network, net_of.
  cbn [c_model_type c_encoding_dim c_n_neurons c_hidden_layers c_out_features c_siren_omega]. rewrite He.
  destruct Hm as [[-> Hm]|[-> Hm]]; cbn [String.eqb Ascii.eqb Bool.eqb orb].
  - destruct (siren_built d 4 (t_n s) (t_h s) out (t_omega s)) as [net [E _]]; try lia; [exact Hm|]. rewrite E. cbn [bind]. eauto.
  - destruct (nerf_built d 4 out (t_n s) (t_h s)) as [net E]; try lia. rewrite E. cbn [bind]. eauto.
Qed.

(** The settings allow the first grid. *)
Definition startable : Prop :=
  t_type s = "regression" \/ t_type s = "classification" /\ good_files files /\ (2 <= t_Nf s)%Z.

Lemma start_runs : startable -> trainable s ->
  exists r', init_training d files (mkRun c None None) = Ok r'.
Proof.
  intros St Tr. destruct (validate_sound _ _ V) as (_ & _ & W & R). destruct frequencies_ok as [fs [Ef Lf]].
  unfold init_training. cbn [r_cfg r_model r_materials]. rewrite V. cbn [bind]. rewrite Ef. cbn [bind fst].
  set (c1 := cfg_set c "target_frequencies" _).
  assert (S1 : same_user c c1) by (apply same_user_set; [cbn; tauto|apply same_user_refl]).
  assert (Q : exists o out, set_outputs files c1 None = Ok o /\ entry (fst o) "out_features" (VInt out) /\ (0 <= out)%Z).
  { pose proof (holds_same c s Ho c1 (proj2 S1)) as [h_type1 _ _ _ _ _ _ _ _ _ _ _ _ _ _ _ _ _ _].
    unfold set_outputs. rewrite (proj2 (getitem_entry _ _ _) h_type1). cbn [bind py_eqb]. destruct St as [->|(-> & Gf & N2)].
    - cbn. eexists. exists 2%Z. split; [reflexivity|]. split; [unfold entry; cbn [fst]; rewrite lookup_set; reflexivity|lia].
    - change (String.eqb "classification" "classification") with true. cbn iota.
      assert (Efs : get_reals c1 "target_frequencies" = Ok fs).
      { apply get_reals_nums. exists (map (fun f => VFloat (Fin f)) fs). split; [unfold entry, c1; rewrite lookup_set; reflexivity|].
        clear. unfold numbers. induction fs; cbn; constructor; auto. }
      rewrite Efs. cbn [bind]. destruct (collection_full files fs Gf) as [mc [rows [Em _]]]; [lia|]. rewrite Em. cbn [bind].
      eexists. exists (Z.of_nat (length (material_names mc))). split; [reflexivity|].
      split; [unfold entry; cbn [fst]; rewrite lookup_set; reflexivity|lia]. }
  destruct Q as [o [out [Eo [En Po]]]]. rewrite Eo. cbn [bind]. unfold set_model.
  pose proof (set_outputs_user files c c1 None o S1 Eo) as [V2 L2].
  assert (V3 : validate_config (fst o) = Ok w) by (rewrite V2; exact V). destruct (validate_sound _ _ V3) as (_ & _ & W3 & _).
  rewrite (read_net_holds (fst o) s (holds_same c s Ho _ L2) W3 out En). cbn [bind].
  destruct (init_works out Tr Po) as [_ [m Em]]. rewrite Em. cbn [bind]. eauto.
Qed.

(** What the first grid reads. *)
Lemma start_reads r' : t_type s = "regression" \/ t_type s = "classification" ->
  init_training d files (mkRun c None None) = Ok r' ->
  exists fs az an out m mats nm,
    length fs = Z.to_nat (t_Nf s) /\ init_network d (net_of s out) = Ok m /\ r_model r' = Some m
    /\ read_eps (r_cfg r') (r_materials r') = Ok (eps_of s az an nm fs mats)
    /\ (t_type s = "regression" -> out = 2%Z)
    /\ (t_type s = "classification" -> out = Z.of_nat nm
         /\ exists mc, MaterialCollection files fs [] = Ok mc /\ nm = length (material_names mc) /\ mats = epsilon_matrix mc).
Proof.
  intros Ty E. pose proof (start_user _ _ _ _ E) as [SV SL]. cbn [r_cfg] in SV, SL. rewrite V in SV.
  destruct (validate_sound _ _ SV) as (_ & _ & W & R). pose proof (holds_same c s Ho _ SL) as Ho'.
  destruct (start_frequencies _ _ _ _ E) as [fs [w0 [w1 [n [dist [Hf [H0 [H1 [Hn [Hd Ht]]]]]]]]]]. cbn [r_cfg] in *.
  assert (Lf : length fs = Z.to_nat (t_Nf s)).
  { destruct (validate_sound _ _ V) as (_ & _ & W0 & _). rewrite (get_int_wt c "N_freq" (t_Nf s) W0) in Hn; [|cbn; tauto|apply Ho].
    injection Hn as <-. exact (frequencies_length _ _ _ _ _ Ht). }
  assert (Efs : get_reals (r_cfg r') "target_frequencies" = Ok fs).
  { apply get_reals_nums. exists (map (fun f => VFloat (Fin f)) fs). split; [exact Hf|]. clear. unfold numbers. induction fs; cbn; constructor; auto. }
  destruct (start_outputs _ _ _ _ E) as [Oc Or]. pose proof (start_model _ _ _ _ E) as M. cbn [r_cfg r_model r_materials] in *.
  destruct M as [nc [m [Rn [Im Em]]]].
  pose proof (h_type _ _ Ho) as Et. destruct Ty as [Ty|Ty].
  - destruct Or as [Om Oo]; [intros H; pose proof (entry_fun _ _ _ _ H Et) as Q; injection Q as Q; congruence|].
    rewrite (read_net_holds _ s Ho' W 2 Oo) in Rn. injection Rn as <-.
    destruct (read_eps_holds _ s Ho' W fs (r_materials r') Hf (or_introl Ty)) as [az [an Er]]. rewrite Om in *. 
    exists fs, az, an, 2%Z, m, (T1 []), 0%nat. split; [exact Lf|]. split; [exact Im|]. split; [exact Em|]. split; [exact Er|].
    split; [reflexivity|]. intros H. congruence.
  - rewrite Ty in Et. destruct (Oc Et) as [fs' [mc [E1 [E2 [E3 [E4 E5]]]]]]. rewrite Efs in E1. injection E1 as <-.
    rewrite (read_net_holds _ s Ho' W _ E5) in Rn. injection Rn as <-.
    destruct (read_eps_holds _ s Ho' W fs (r_materials r') Hf) as [az [an Er]].
    { right. split; [exact Ty|]. exists mc. auto. }
    rewrite E3, Ty in Er. change (String.eqb "classification" "classification") with true in Er. cbn iota in Er. rewrite E3.
    exists fs, az, an, (Z.of_nat (length (material_names mc))), m, (epsilon_matrix mc), (length (material_names mc)).
    split; [exact Lf|]. split; [exact Im|]. split; [exact Em|]. split; [exact Er|]. split; [congruence|]. intros _. split; [reflexivity|]. eauto.
Qed.

Lemma start_same az an out nm fs mats : 
  (t_type s = "regression" /\ out = 2%Z \/ t_type s = "classification" /\ out = Z.of_nat nm) ->
  same_run (net_of s out) (eps_of s az an nm fs mats).
Proof.
  intros H. unfold same_run, net_of, eps_of. cbn. repeat (split; [reflexivity|]).
  destruct H as [[-> ->]|[-> ->]]; reflexivity.
Qed.

Lemma start_sampling az an nm fs mats : (forall x, In x (t_thickness s) -> 0 < x) -> length fs = Z.to_nat (t_Nf s) ->
  sampling_ok (eps_of s az an nm fs mats) /\ os_ok (eps_of s az an nm fs mats).
Proof.
  intros Pt Lf. destruct (validate_sound _ _ V) as (_ & _ & W & R).
  pose proof (sizes c s Ho R) as (Pn & Px & Py & Po & Pl & Pf & [qx Qx] & [qy Qy] & Hd & Hl).
  unfold sampling_ok, os_ok, eps_of. cbn. split.
  - split; [exact Hd|]. split; [lia|]. split; [exact Lf|]. split; [lia|].
    split; [destruct Hl; [right; lia|left; assumption]|]. split; [exact Pt|].
    assert (Ox : (t_os s <= t_Nx s)%Z) by (assert (0 < qx)%Z by nia; nia).
    assert (Oy : (t_os s <= t_Ny s)%Z) by (assert (0 < qy)%Z by nia; nia). lia.
  - split; [lia|]. split; [exact (multiple_nat _ _ _ Po Qx)|exact (multiple_nat _ _ _ Po Qy)].
Qed.

Lemma first_regression r' nre nim noise : t_type s = "regression" -> trainable s ->
  init_training d files (mkRun c None None) = Ok r' ->
  exists g, grid_of_run r' nre nim noise = Ok (Some (g, None))
    /\ shape4 g (Z.to_nat (t_Nx s)) (Z.to_nat (t_Ny s)) (Z.to_nat (t_Nl s)) (Z.to_nat (t_Nf s)).
Proof.
  intros Ty Tr E. destruct (start_reads r' (or_introl Ty) E) as (fs & az & an & out & m & mats & nm & Lf & Im & Em & Er & Or & _).
  pose proof Tr as (_ & Pt & _). destruct (start_sampling az an nm fs mats Pt Lf) as [Sa Os].
  destruct (init_works out Tr) as [Wk _]; [rewrite (Or Ty); lia|].
  destruct (network_regression d _ _ nre nim (start_same az an out nm fs mats (or_introl (conj Ty (Or Ty)))) Sa Os Wk Ty) as (m' & net & g & E1 & E2 & E3 & Sh).
  rewrite Im in E1. injection E1 as <-. exists g. split; [|exact Sh].
  unfold grid_of_run. rewrite Em, Er. cbn [bind]. rewrite E2. cbn [bind]. unfold model_to_eps_grid.
  assert (T : e_type (eps_of s az an nm fs mats) = "regression") by exact Ty. rewrite T. cbn [String.eqb Ascii.eqb Bool.eqb]. rewrite E3. reflexivity.
Qed.

Lemma avoid_shape cut g a b e f : shape4 g a b e f -> shape4 (avoid_zero_eps cut g) a b e f.
Proof. intros H. apply shape4_map3 with (1 := H). intros v Hv. rewrite map_length. exact Hv. Qed.

Lemma first_classification r' nre nim noise : t_type s = "classification" -> good_files files -> (2 <= t_Nf s)%Z -> trainable s ->
  init_training d files (mkRun c None None) = Ok r' ->
  exists g ids, grid_of_run r' nre nim noise = Ok (Some (g, Some ids))
    /\ shape4 g (Z.to_nat (t_Nx s)) (Z.to_nat (t_Ny s)) (Z.to_nat (t_Nl s)) (Z.to_nat (t_Nf s))
    /\ shape4 ids (Z.to_nat (t_Nx s)) (Z.to_nat (t_Ny s)) (Z.to_nat (t_Nl s)) (length files)
    /\ forall x y l, (x < Z.to_nat (t_Nx s))%nat -> (y < Z.to_nat (t_Ny s))%nat -> (l < Z.to_nat (t_Nl s))%nat ->
         Rsum (nth l (nth y (nth x ids []) []) []) = 1.
Proof.
  intros Ty Gf N2 Tr E. destruct (start_reads r' (or_intror Ty) E) as (fs & az & an & out & m & mats & nm & Lf & Im & Em & Er & _ & Oc).
  destruct (Oc Ty) as [-> [mc [Emc [-> ->]]]]. destruct (collection_full files fs Gf) as [mc' [rows [Emc' [Lm [Et [Lr Lv]]]]]]; [lia|].
  rewrite Emc in Emc'. injection Emc' as <-. rewrite Et in *. 
  set (nm := length (material_names mc)) in *.
  pose proof Tr as (_ & Pt & _). destruct (start_sampling az an nm fs (T2 rows) Pt Lf) as [Sa Os].
  destruct (init_works (Z.of_nat nm) Tr) as [Wk _]; [lia|].
  destruct (network_rows d _ _ (start_same az an _ nm fs (T2 rows) (or_intror (conj Ty eq_refl))) Sa Wk) as (m' & net & out & E1 & E2 & E3 & Ro & _).
  rewrite Im in E1. injection E1 as <-. cbn [c_out_features net_of] in Ro. rewrite Nat2Z.id in Ro.
  destruct Gf as [G2 _].
  destruct (C17_weights_and_mixture (eps_of s az an nm fs (T2 rows)) net noise out rows Os E3 Ro) as (mix & ids & E4 & S1 & S2 & Hw);
    [cbn; lia|cbn; lia|reflexivity|cbn; lia|cbn; intros v Hv; rewrite (Lv v Hv); exact Lf|].
  exists (if az then avoid_zero_eps (/ 100) mix else mix), ids. cbn [eps_of e_avoid_zero e_Nx e_Ny e_N_layers e_N_freq e_N_materials] in *.
  split; [|split; [|split]].
  - unfold grid_of_run. rewrite Em, Er. cbn [bind]. rewrite E2. cbn [bind]. unfold model_to_eps_grid.
    assert (T : e_type (eps_of s az an nm fs (T2 rows)) = "classification") by exact Ty. rewrite T.
    change (String.eqb "classification" "classification") with true. cbn iota. rewrite E4. reflexivity.
  - destruct az; [apply avoid_shape|]; exact S1.
  - rewrite <- Lm. exact S2.
  - intros x y l Hx Hy Hl. apply (Hw x y l Hx Hy Hl).
Qed.

Lemma first_voxel : t_type s = "regression" -> t_model s = "voxel" ->
  exists r', init_training d files (mkRun c None None) = Ok r'
    /\ forall nre nim noise, exists g, grid_of_run r' nre nim noise = Ok (Some (g, None))
    /\ shape4 g (Z.to_nat (t_Nx s)) (Z.to_nat (t_Ny s)) (Z.to_nat (t_Nl s)) (Z.to_nat (t_Nf s)).
Proof.
  intros Ty Mo. destruct frequencies_ok as [fs0 [Ef Lf0]].
  assert (I : exists r', init_training d files (mkRun c None None) = Ok r').
  { unfold init_training. cbn [r_cfg r_model r_materials]. rewrite V. cbn [bind]. rewrite Ef. cbn [bind fst].
    set (c1 := cfg_set c "target_frequencies" _).
    assert (S1 : same_user c c1) by (apply same_user_set; [cbn; tauto|apply same_user_refl]).
    pose proof (holds_same c s Ho c1 (proj2 S1)) as [h_type1 _ _ _ _ _ _ _ _ _ _ _ _ _ _ _ _ _ _].
    assert (Q : set_outputs files c1 None = Ok (cfg_set c1 "out_features" (VInt 2), None)).
    { unfold set_outputs. rewrite (proj2 (getitem_entry _ _ _) h_type1), Ty. reflexivity. }
    pose proof (set_outputs_user files c c1 None _ S1 Q) as [V2 L2]. rewrite Q. cbn [bind fst snd] in *. unfold set_model.
    assert (V3 := V). rewrite <- V2 in V3. destruct (validate_sound _ _ V3) as (_ & _ & W3 & _).
    rewrite (read_net_holds _ s (holds_same c s Ho _ L2) W3 2); [|unfold entry; rewrite lookup_set; reflexivity]. cbn [bind].
    unfold init_network, net_of. cbn [c_model_type c_type]. rewrite Mo, Ty. cbn [String.eqb Ascii.eqb Bool.eqb].
    unfold voxel_new. cbn [String.eqb Ascii.eqb Bool.eqb negb bind]. eauto. }
  destruct I as [r' E]. exists r'. split; [exact E|]. intros nre nim noise.
  destruct (start_reads r' (or_introl Ty) E) as (fs & az & an & out & m & mats & nm & Lf & Im & Em & Er & Or & _).
  unfold init_network, net_of in Im. cbn [c_model_type c_type] in Im. rewrite Mo, Ty in Im. cbn [String.eqb Ascii.eqb Bool.eqb] in Im.
  unfold voxel_new in Im. cbn [String.eqb Ascii.eqb Bool.eqb negb bind] in Im.
  match type of Im with Ok (Voxel ?w) = _ => set (v := w) in Im end.
  assert (Sv : shape4 v (Z.to_nat (t_Nx s)) (Z.to_nat (t_Ny s)) (Z.to_nat (t_Nl s)) (Z.to_nat (t_Nf s))).
  { unfold shape4, v. cbn [c_Nx c_Ny c_N_layers c_N_freq]. rewrite map_length, seq_length. split; [reflexivity|]. intros a Ha. apply in_map_iff in Ha. destruct Ha as [x [<- _]].
    rewrite map_length, seq_length. split; [reflexivity|]. intros b Hb. apply in_map_iff in Hb. destruct Hb as [y [<- _]].
    rewrite map_length, seq_length. split; [reflexivity|]. intros e He. apply in_map_iff in He. destruct He as [z [<- _]].
    rewrite map_length, seq_length. reflexivity. }
  clearbody v. injection Im as <-. unfold grid_of_run. rewrite Em, Er. cbn [bind].
  set (cfg := eps_of s az an nm fs mats).
  assert (Ev : forall net, eval_model cfg net = Ok (Vox (net_voxel net))).
  { intros net. unfold eval_model. change (e_model_type cfg) with (t_model s). rewrite Mo. reflexivity. }
  unfold with_model. rewrite Ev. cbn [bind]. unfold model_to_eps_grid. change (e_type cfg) with (t_type s). rewrite Ty.
  cbn [String.eqb Ascii.eqb Bool.eqb]. unfold regression_grid. rewrite Ev. cbn [bind net_voxel].
  eexists. split; [reflexivity|].
  assert (Sm : forall f : C -> C, shape4 (map3 (map f) v) (Z.to_nat (t_Nx s)) (Z.to_nat (t_Ny s)) (Z.to_nat (t_Nl s)) (Z.to_nat (t_Nf s))).
  { intros f. apply shape4_map3 with (1 := Sv). intros x Hx. rewrite map_length. exact Hx. }
  destruct (e_add_noise cfg); [apply add_noise_shape|]; apply Sm.
Qed.

(** * Settings the validator lets through and that fail *)
Lemma start_omega : t_type s = "regression" -> t_model s = "siren" -> t_enc s = 4%Z -> t_omega s <= 0 ->
  init_training d files (mkRun c None None) = Err RuntimeError.
Proof.
  intros Ty Mo En Om. destruct (validate_sound _ _ V) as (_ & _ & W & R). destruct frequencies_ok as [fs [Ef Lf]].
  unfold init_training. cbn [r_cfg r_model r_materials]. rewrite V. cbn [bind]. rewrite Ef. cbn [bind fst].
  set (c1 := cfg_set c "target_frequencies" _).
  assert (S1 : same_user c c1) by (apply same_user_set; [cbn; tauto|apply same_user_refl]).
  pose proof (holds_same c s Ho c1 (proj2 S1)) as [h_type1 _ _ _ _ _ _ _ _ _ _ _ _ _ _ _ _ _ _].
  assert (Q : set_outputs files c1 None = Ok (cfg_set c1 "out_features" (VInt 2), None)).
  { unfold set_outputs. rewrite (proj2 (getitem_entry _ _ _) h_type1), Ty. reflexivity. }
  pose proof (set_outputs_user files c c1 None _ S1 Q) as [V2 L2]. rewrite Q. cbn [bind fst snd] in *. unfold set_model.
  assert (V3 := V). rewrite <- V2 in V3. destruct (validate_sound _ _ V3) as (_ & _ & W3 & _).
  rewrite (read_net_holds _ s (holds_same c s Ho _ L2) W3 2); [|unfold entry; rewrite lookup_set; reflexivity]. cbn [bind].
  unfold init_network, net_of. cbn [c_model_type]. rewrite Mo. cbn [String.eqb Ascii.eqb Bool.eqb c_encoding_dim c_n_neurons c_hidden_layers c_out_features c_siren_omega orb].
  pose proof (sizes c s Ho R) as (Pn & _).
  rewrite siren_omega; try lia; try lra. reflexivity.
Qed.

Lemma start_encoding r' nre nim noise : t_type s = "regression" -> (forall x, In x (t_thickness s) -> 0 < x) ->
  (t_model s = "siren" /\ t_enc s <> 4%Z) \/ (t_model s = "nerf" /\ (t_enc s <> 4%Z \/ t_h s = 3%Z \/ t_h s = 4%Z)) ->
  init_training d files (mkRun c None None) = Ok r' ->
  grid_of_run r' nre nim noise = Err RuntimeError.
Proof.
  intros Ty Pt H E. destruct (start_reads r' (or_introl Ty) E) as (fs & az & an & out & m & mats & nm & Lf & Im & Em & Er & Or & _).
  destruct (start_sampling az an nm fs mats Pt Lf) as [Sa Os].
  destruct (validate_sound _ _ V) as (_ & _ & W & R). pose proof (sizes c s Ho R) as (Pn & _).
  pose proof (start_same az an out nm fs mats (or_introl (conj Ty (Or Ty)))) as Sm.
  unfold grid_of_run. rewrite Em, Er. cbn [bind].
  assert (D : (t_model s = "siren" /\ t_enc s <> 4%Z \/ t_model s = "nerf" /\ (t_enc s <> 4%Z \/ t_h s = 4%Z)) \/ (t_model s = "nerf" /\ t_enc s = 4%Z /\ t_h s = 3%Z)).
  { destruct H as [H|[H1 [H2|[H2|H2]]]]; auto. destruct (Z.eq_dec (t_enc s) 4); auto. }
  destruct D as [D|(D1 & D2 & D3)].
  - rewrite (network_fails d _ _ m Sm Sa); [reflexivity|cbn; exact Pn| |exact Im].
    unfold net_of. cbn. destruct D as [[D1 D2]|[D1 D2]]; rewrite D1; cbn; [left|right]; auto.
  - destruct (network_three d _ _ nre nim m Sm Sa) as [net [E1 E2]]; try exact Im; try exact Pn; try exact Ty; try exact D1; try exact D2.
    { unfold net_of. cbn. rewrite D1. exact D3. }
    rewrite E1. cbn [bind]. unfold model_to_eps_grid.
    assert (T : e_type (eps_of s az an nm fs mats) = "regression") by exact Ty. rewrite T. cbn [String.eqb Ascii.eqb Bool.eqb]. rewrite E2. reflexivity.
Qed.
End first.

(** * A model kept from a run of another type *)
Lemma holds_retype c s ty : holds c s -> holds (cfg_set c "type" (VStr ty)) (retype s ty).
Proof.
  intros Ho. set (c' := cfg_set c "type" (VStr ty)).
  assert (L : forall k, k <> "type" -> lookup c' k = lookup c k).
  { intros k N. unfold c'. rewrite lookup_set. destruct (String.eqb_spec "type" k); [congruence|reflexivity]. }
  assert (N : forall k x, k <> "type" -> entry_num c k x -> entry_num c' k x).
  { intros k x N [v [E1 E2]]. exists v. unfold entry. rewrite L by exact N. auto. }
  destruct Ho. split; cbn; unfold entry in *; try (rewrite L by discriminate; assumption);
  try (apply N; [discriminate|assumption]).
  - unfold c'. rewrite lookup_set. reflexivity.
  - destruct h_thickness as [l [E1 E2]]. exists l. unfold entry. rewrite L by discriminate. auto.
Qed.

Section retyped.
Variables (c : config) (old ty : string).
Hypothesis Eo : entry c "type" (VStr old).
Hypothesis Po : In old ["classification";"regression"].
Hypothesis Pt : In ty ["classification";"regression"].
Let c' := cfg_set c "type" (VStr ty).
Let L x : x <> "type" -> lookup c' x = lookup c x.
Proof. intros H. unfold c'. rewrite lookup_set. destruct (String.eqb_spec "type" x); [congruence|reflexivity]. Qed.
Let G x : x <> "type" -> getitem c' x = getitem c x.
Proof. intros H. unfold getitem. rewrite L by exact H. reflexivity. Qed.
Let G0 : getitem c "type" = Ok (VStr old).
Proof. apply getitem_entry. exact Eo. Qed.
Let G1 : getitem c' "type" = Ok (VStr ty).
Proof. unfold getitem, c'. rewrite lookup_set. reflexivity. Qed.
Let H x : has_key c' x = has_key c x.
Proof.
  destruct (String.eqb_spec x "type") as [->|N]; unfold has_key; [|rewrite L by exact N; reflexivity].
  unfold c'. rewrite lookup_set. unfold entry in Eo. rewrite Eo. reflexivity.
Qed.
Ltac get := repeat match goal with |- context [getitem c' ?x] => rewrite (G x) by discriminate end.

Lemma validate_retype : validate_config c' = validate_config c.
Proof.
  unfold validate_config.
  assert (E1 : check_for_keys c' = check_for_keys c).
  { unfold check_for_keys. rewrite (for_each_ext required_keys _ (fun k0 => ensure (has_key c k0) KeyError)).
    - unfold c'. rewrite keys_set; [reflexivity|reflexivity].
    - intros x I. rewrite H. reflexivity. }
  assert (T : forall p l, (forall v, p (VStr v) = true) \/ in_strings "type" l = false -> for_each l (check_type c' p) = for_each l (check_type c p)).
  { intros p l D. apply for_each_ext. intros x I. unfold check_type. destruct (String.eqb_spec x "type") as [->|N].
    - destruct D as [D|D]; [rewrite G0, G1; cbn [bind]; rewrite !D; reflexivity|]. apply in_strings_iff in I. congruence.
    - rewrite (G x N). reflexivity. }
  assert (E2 : check_entry_types c' = check_entry_types c).
  { unfold check_entry_types. rewrite !T by (auto; left; reflexivity). reflexivity. }
  assert (E3 : check_value_ranges c' = check_value_ranges c).
  { assert (N : forall l, in_strings "type" l = false -> forall x, In x l -> getitem c' x = getitem c x).
    { intros l F x I. apply G. intros ->. apply in_strings_iff in I. congruence. }
    assert (P : for_each positive_value_keys (check_positive c') = for_each positive_value_keys (check_positive c)).
    { apply for_each_ext. intros x I. unfold check_positive. rewrite (N positive_value_keys eq_refl x I). reflexivity. }
    assert (A : for_each all_positive_list_keys (check_all_positive c') = for_each all_positive_list_keys (check_all_positive c)).
    { apply for_each_ext. intros x I. unfold check_all_positive. rewrite (N all_positive_list_keys eq_refl x I), H. reflexivity. }
    assert (B : for_each all_positive_or_zero_list_keys (check_all_nonneg c') = for_each all_positive_or_zero_list_keys (check_all_nonneg c)).
    { apply for_each_ext. intros x I. unfold check_all_nonneg. rewrite (N all_positive_or_zero_list_keys eq_refl x I). reflexivity. }
    assert (K : check_choice c' "type" ["classification";"regression"] = check_choice c "type" ["classification";"regression"]).
    { unfold check_choice. rewrite G0, G1. destruct Po as [<-|[<-|[]]], Pt as [<-|[<-|[]]]; reflexivity. }
    unfold check_value_ranges. rewrite P, A, B, K.
    unfold check_min_max, check_wl_order, check_detector, fdtd_scaling, check_multiple, check_lattice, check_thickness_len, check_source_len.
    get. unfold check_choice. get. reflexivity. }
  rewrite E1, E2, E3. get. unfold check_grid_scale, fdtd_scaling. get. reflexivity.
Qed.
End retyped.

Lemma classification_bad_count cfg net noise rows : eval_model cfg net = Ok (Rows rows) ->
  length (concat rows) <> ((e_Nx cfg / e_os cfg) * (e_Ny cfg / e_os cfg) * e_N_layers cfg * (e_N_freq cfg * e_N_materials cfg))%nat ->
  classification_grid cfg net noise = Err RuntimeError.
Proof.
  intros E N. unfold classification_grid. rewrite E. cbn [bind]. unfold reshape4.
  destruct (Nat.eqb_spec (length (concat rows)) ((e_Nx cfg / e_os cfg) * (e_Ny cfg / e_os cfg) * e_N_layers cfg * (e_N_freq cfg * e_N_materials cfg))); [contradiction|reflexivity].
Qed.

Section stale.
Variables (d d' : draws) (files : list mfile) (c : config) (w : list (option pyfloat)) (s : settings) (r1 : run).
Hypothesis V : validate_config c = Ok w.
Hypothesis Ho : holds c s.
Hypothesis Tr : trainable s.
Hypothesis Ty : t_type s = "regression".
Hypothesis E1 : init_training d files (mkRun c None None) = Ok r1.
Let c2 := cfg_set (r_cfg r1) "type" (VStr "classification").
Let V2 : validate_config c2 = Ok w.
Proof.
  pose proof (start_user _ _ _ _ E1) as [SV SL]. cbn [r_cfg] in SV, SL. rewrite <- V, <- SV. apply validate_retype with "regression".
  - unfold entry. rewrite SL by (cbn; intuition discriminate). rewrite <- Ty. apply Ho.
  - cbn; tauto.
  - cbn; tauto.
Qed.
Hypothesis Gf : good_files files.
Hypothesis N2 : (2 <= t_Nf s)%Z.

Lemma stale_model nre nim noise : length files <> 2%nat ->
  exists r2, init_training d' files (mkRun c2 (r_model r1) (r_materials r1)) = Ok r2
    /\ r_model r2 = r_model r1 /\ grid_of_run r2 nre nim noise = Err RuntimeError.
Proof.
  intros NF. pose proof (start_user _ _ _ _ E1) as [_ SL]. cbn [r_cfg] in SL.
  pose proof (holds_retype _ s "classification" (holds_same c s Ho _ SL)) as Ho2. fold c2 in Ho2.
  set (s2 := retype s "classification") in *.
  destruct (start_reads d files c w s V Ho r1 (or_introl Ty) E1) as (fs1 & az1 & an1 & out & m & mats1 & nm1 & Lf1 & Im & Em & _ & Or & _).
  rewrite (Or Ty) in Im. rewrite Em.
  assert (I2 : exists r2, init_training d' files (mkRun c2 (Some m) (r_materials r1)) = Ok r2).
  { destruct (frequencies_ok c2 w s2 V2 Ho2) as [fs [Ef Lf]].
    unfold init_training. cbn [r_cfg r_model r_materials]. rewrite V2. cbn [bind]. rewrite Ef. cbn [bind fst].
    set (c3 := cfg_set c2 "target_frequencies" _).
    assert (T : entry c3 "type" (VStr "classification")) by (unfold entry, c3, c2; rewrite !lookup_set; reflexivity).
    unfold set_outputs. rewrite (proj2 (getitem_entry _ _ _) T). cbn [bind py_eqb].
    change (String.eqb "classification" "classification") with true. cbn iota.
    assert (Efs : get_reals c3 "target_frequencies" = Ok fs).
    { apply get_reals_nums. exists (map (fun f => VFloat (Fin f)) fs). split; [unfold entry, c3; rewrite lookup_set; reflexivity|].
      clear. unfold numbers. induction fs; cbn; constructor; auto. }
    rewrite Efs. cbn [bind]. destruct (collection_full files fs Gf) as [mc [rows [Emc _]]]; [rewrite Lf; change (t_Nf s2) with (t_Nf s); lia|]. rewrite Emc.
    cbn [bind]. unfold set_model. cbn [bind]. eauto. }
  destruct I2 as [r2 E2]. exists r2. split; [exact E2|].
  pose proof (start_model _ _ _ _ E2) as Em2. cbn [r_model] in Em2. split; [exact Em2|].
  pose proof (start_user _ _ _ _ E2) as [SV2 SL2]. cbn [r_cfg] in SV2, SL2. rewrite V2 in SV2.
  destruct (validate_sound _ _ SV2) as (_ & _ & W & R). pose proof (holds_same c2 s2 Ho2 _ SL2) as Ho'.
  destruct (start_frequencies _ _ _ _ E2) as [fs [w0 [w1 [n [dist [Hf [_ [_ [Hn [_ Ht]]]]]]]]]]. cbn [r_cfg] in *.
  assert (Lf : length fs = Z.to_nat (t_Nf s)).
  { destruct (validate_sound _ _ V2) as (_ & _ & W0 & _). rewrite (get_int_wt c2 "N_freq" (t_Nf s2) W0) in Hn; [|cbn; tauto|apply Ho2].
    injection Hn as <-. exact (frequencies_length _ _ _ _ _ Ht). }
  assert (Efs : get_reals (r_cfg r2) "target_frequencies" = Ok fs).
  { apply get_reals_nums. exists (map (fun f => VFloat (Fin f)) fs). split; [exact Hf|]. clear. unfold numbers. induction fs; cbn; constructor; auto. }
  destruct (start_outputs _ _ _ _ E2) as [Oc _]. cbn [r_cfg] in Oc.
  destruct (Oc (h_type _ _ Ho2)) as [fs' [mc [F1 [F2 [F3 [F4 F5]]]]]]. rewrite Efs in F1. injection F1 as <-.
  destruct (collection_full files fs Gf) as [mc' [rows [Emc' [Lm [Et [Lr Lv]]]]]]; [lia|]. rewrite F2 in Emc'. injection Emc' as <-.
  destruct (read_eps_holds _ s2 Ho' W fs (r_materials r2) Hf) as [az [an Er]].
  { right. split; [reflexivity|]. exists mc. auto. }
  rewrite F3 in Er. cbn [t_type s2 retype] in Er. change (String.eqb "classification" "classification") with true in Er. cbn iota in Er.
  unfold grid_of_run. rewrite Em2, F3, Er. cbn [bind].
  set (nm := length (material_names mc)) in *. set (mats := epsilon_matrix mc) in *.
  pose proof Tr as (_ & Pt & _). destruct (start_sampling c w s V Ho az an nm fs mats Pt Lf) as [Sa Os].
  destruct (init_works d c w s V Ho 2 Tr) as [Wk _]; [lia|].
  destruct (network_rows d _ _ (start_same s az an 2 nm fs mats (or_introl (conj Ty eq_refl))) Sa Wk) as (m' & net & rws & G1 & G2 & G3 & [Ro1 Ro2] & _).
  rewrite Im in G1. injection G1 as <-.
  change (with_model (eps_of s2 az an nm fs mats) m) with (with_model (eps_of s az an nm fs mats) m). rewrite G2. cbn [bind].
  unfold model_to_eps_grid. change (e_type (eps_of s2 az an nm fs mats)) with "classification".
  change (String.eqb "classification" "classification") with true. cbn iota.
  rewrite (classification_bad_count _ net noise rws); [reflexivity|exact G3|].
  rewrite (concat_length_k rws 2) by exact Ro2. rewrite Ro1. cbn [eps_of e_Nx e_Ny e_os e_N_layers e_N_freq e_N_materials s2 retype t_Nx t_Ny t_os t_Nl t_Nf].
  destruct (validate_sound _ _ V) as (_ & _ & _ & R0).
  pose proof (sizes c s Ho R0) as (_ & Px & Py & Po & Pl & Pf & _).
  destruct Sa as (_ & _ & _ & _ & _ & _ & [S1 S2] & S3). cbn [eps_of e_Nx e_Ny e_os] in S1, S2, S3.
  assert (Ax : (0 < Z.to_nat (t_Nx s) / Z.to_nat (t_os s))%nat) by (apply Nat.div_str_pos; lia).
  assert (Ay : (0 < Z.to_nat (t_Ny s) / Z.to_nat (t_os s))%nat) by (apply Nat.div_str_pos; lia).
  rewrite Lm. set (A := (Z.to_nat (t_Nx s) / Z.to_nat (t_os s))%nat) in *. set (B := (Z.to_nat (t_Ny s) / Z.to_nat (t_os s))%nat) in *.
  assert (P : (0 < A * B * Z.to_nat (t_Nl s) * Z.to_nat (t_Nf s))%nat) by (repeat apply Nat.mul_pos_pos; lia).
  rewrite Nat.mul_assoc. set (Q := (A * B * Z.to_nat (t_Nl s) * Z.to_nat (t_Nf s))%nat) in *. clearbody Q. intros E. apply NF. nia.
Qed.
End stale.
