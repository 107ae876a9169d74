(** Proofs about the start of a training run (C63). *)
From Coq Require Import Reals ZArith String List Bool Lra Lia.
From Verif Require Import Base BaseLemmas Cplx PyVal Model_Config Spec_Config Proof_Config Model_Materials Model_EpsGrid Spec_EpsGrid Proof_EpsGrid
  Model_Units Model_Layout Proof_Spectrum2 Spec_Dispatch Proof_Dispatch2 Model_Networks Spec_Networks Proof_Networks Proof_Networks2
  Model_Start Spec_Start.
Import ListNotations.
Open Scope R_scope.
Open Scope string_scope.

(** * Entries the validator does not read *)
Lemma for_each_ext {A} (l : list A) f g : (forall x, In x l -> f x = g x) -> for_each l f = for_each l g.
Proof.
  induction l as [|x l IH]; intros H; cbn [for_each]; [reflexivity|].
  rewrite (H x (or_introl eq_refl)), IH; [reflexivity|]. intros; apply H; cbn; auto.
Qed.

Lemma keys_set c k v (body : string -> res unit) : body k = Ok tt ->
  for_each (map fst (cfg_set c k v)) body = for_each (map fst c) body.
Proof.
  intros B. induction c as [|[a b] r IH]; cbn [cfg_set map for_each fst].
  - rewrite B. reflexivity.
  - destruct (String.eqb_spec k a) as [->|N]; cbn [map for_each fst]; [reflexivity|]. rewrite IH. reflexivity.
Qed.

Section unread.
Variables (c : config) (k : string) (v : pyval).
Hypothesis D : forall x, In x ("FDTD_grid" :: required_keys) -> x <> k.
Hypothesis O : In k optional_keys.
Let c' := cfg_set c k v.
Let L x : In x ("FDTD_grid" :: required_keys) -> lookup c' x = lookup c x.
Proof. intros H. unfold c'. rewrite lookup_set. destruct (String.eqb_spec k x); [exfalso; exact (D x H (eq_sym e))|reflexivity]. Qed.
Let G x : In x ("FDTD_grid" :: required_keys) -> getitem c' x = getitem c x.
Proof. intros H. unfold getitem. rewrite L by exact H. reflexivity. Qed.
Let H x : In x ("FDTD_grid" :: required_keys) -> has_key c' x = has_key c x.
Proof. intros I. unfold has_key. rewrite L by exact I. reflexivity. Qed.

Lemma incl_required l : forallb (fun x => in_strings x required_keys) l = true ->
  forall x, In x l -> In x ("FDTD_grid" :: required_keys).
Proof. intros F x I. rewrite forallb_forall in F. right. apply in_strings_iff. exact (F x I). Qed.

Ltac get := repeat match goal with |- context [getitem c' ?x] => rewrite (G x) by (cbn; tauto) end.

Lemma validate_set : validate_config c' = validate_config c.
Proof.
  unfold validate_config.
  assert (E1 : check_for_keys c' = check_for_keys c).
  { unfold check_for_keys. rewrite (for_each_ext required_keys _ (fun k0 => ensure (has_key c k0) KeyError)).
    - unfold c'. rewrite keys_set; [reflexivity|]. 
      assert (E : in_strings k optional_keys = true) by (apply in_strings_iff; exact O). rewrite E, andb_false_r. reflexivity.
    - intros x I. rewrite H; [reflexivity|]. right. exact I. }
  assert (T : forall p l, forallb (fun x => in_strings x required_keys) l = true -> for_each l (check_type c' p) = for_each l (check_type c p)).
  { intros p l F. apply for_each_ext. intros x I. unfold check_type. rewrite G; [reflexivity|]. exact (incl_required l F x I). }
  assert (E2 : check_entry_types c' = check_entry_types c).
  { unfold check_entry_types. rewrite !T by reflexivity. reflexivity. }
  assert (E3 : check_value_ranges c' = check_value_ranges c).
  { unfold check_value_ranges.
    assert (P : for_each positive_value_keys (check_positive c') = for_each positive_value_keys (check_positive c)).
    { apply for_each_ext. intros x I. unfold check_positive. rewrite G; [reflexivity|]. apply (incl_required positive_value_keys eq_refl x I). }
    assert (A : for_each all_positive_list_keys (check_all_positive c') = for_each all_positive_list_keys (check_all_positive c)).
    { apply for_each_ext. intros x I. unfold check_all_positive.
      assert (I' : In x ("FDTD_grid" :: required_keys)).
      { destruct I as [<-|[<-|[<-|[<-|[]]]]]; cbn; tauto. }
      rewrite G, H by exact I'. reflexivity. }
    assert (N : for_each all_positive_or_zero_list_keys (check_all_nonneg c') = for_each all_positive_or_zero_list_keys (check_all_nonneg c)).
    { apply for_each_ext. intros x I. unfold check_all_nonneg. rewrite G; [reflexivity|]. apply (incl_required all_positive_or_zero_list_keys eq_refl x I). }
    rewrite P, A, N. unfold check_min_max, check_wl_order, check_detector, fdtd_scaling, check_multiple, check_choice, check_lattice, check_thickness_len, check_source_len.
    get. reflexivity. }
  rewrite E1, E2, E3. get. unfold check_grid_scale, fdtd_scaling. get. reflexivity.
Qed.
End unread.

Lemma start_key_unread k : In k start_keys -> (forall x, In x ("FDTD_grid" :: required_keys) -> x <> k) /\ In k optional_keys.
Proof.
  intros I. assert (B : forallb (fun k => negb (in_strings k ("FDTD_grid" :: required_keys)) && in_strings k optional_keys) start_keys = true) by reflexivity.
  rewrite forallb_forall in B. specialize (B k I). apply andb_prop in B. destruct B as [B1 B2].
  split; [|apply in_strings_iff; exact B2]. intros x Hx ->. apply in_strings_iff in Hx. rewrite Hx in B1. discriminate.
Qed.

(** [c'] differs from [c] in the entries a start may write at most. *)
Definition same_user (c c' : config) : Prop :=
  validate_config c' = validate_config c /\ forall k, ~ In k start_keys -> lookup c' k = lookup c k.
Lemma same_user_refl c : same_user c c.
Proof. split; auto. Qed.
Lemma same_user_set c c' k v : In k start_keys -> same_user c c' -> same_user c (cfg_set c' k v).
Proof.
  intros I [V L]. destruct (start_key_unread k I) as [D O]. split.
  - rewrite (validate_set c' k v D O). exact V.
  - intros k' N. rewrite lookup_set. destruct (String.eqb_spec k k') as [->|]; [contradiction|]. apply L, N.
Qed.

Lemma set_outputs_user files c c0 old o : same_user c c0 -> set_outputs files c0 old = Ok o -> same_user c (fst o).
Proof.
  intros S. unfold set_outputs. intros E. apply bind_ok in E. destruct E as [t [_ E]]. destruct (py_eqb _ _).
  - apply bind_ok in E. destruct E as [fs [_ E]]. apply bind_ok in E. destruct E as [mc [_ E]]. injection E as <-. cbn [fst].
    do 3 (apply same_user_set; [cbn; tauto|]). exact S.
  - injection E as <-. cbn [fst]. apply same_user_set; [cbn; tauto|exact S].
Qed.

Lemma frequency_points_user c f : frequency_points c = Ok f -> same_user c (fst f).
Proof.
  unfold frequency_points. intros E. do 5 (apply bind_ok in E; destruct E as [? [_ E]]). injection E as <-. cbn [fst].
  apply same_user_set; [cbn; tauto|apply same_user_refl].
Qed.

Lemma start_user d files r r' : init_training d files r = Ok r' -> same_user (r_cfg r) (r_cfg r').
Proof.
  unfold init_training. intros E. apply bind_ok in E. destruct E as [w [_ E]]. apply bind_ok in E. destruct E as [f [Ef E]].
  apply bind_ok in E. destruct E as [o [Eo E]]. apply bind_ok in E. destruct E as [m [Em E]]. injection E as <-. cbn [r_cfg].
  apply frequency_points_user in Ef. apply (set_outputs_user files (r_cfg r)) in Eo; [|exact Ef].
  unfold set_model in Em. destruct (r_model r); [injection Em as <-; exact Eo|].
  apply bind_ok in Em. destruct Em as [nc [_ Em]]. apply bind_ok in Em. destruct Em as [m' [_ Em]]. injection Em as <-. cbn [fst].
  apply same_user_set; [cbn; tauto|exact Eo].
Qed.

Lemma start_invalid d files r e : validate_config (r_cfg r) = Err e -> init_training d files r = Err e.
Proof. intros E. unfold init_training. rewrite E. reflexivity. Qed.

(** The written entries. *)
Lemma start_frequencies d files r r' : init_training d files r = Ok r' ->
  exists fs w0 w1 n dist, lookup (r_cfg r') "target_frequencies" = Some (VList (map (fun f => VFloat (Fin f)) fs))
    /\ get_item (r_cfg r) "physical_wavelength_range" 0 = Ok w0 /\ get_item (r_cfg r) "physical_wavelength_range" 1 = Ok w1
    /\ get_int (r_cfg r) "N_freq" = Ok n /\ get_str (r_cfg r) "freq_distribution" = Ok dist
    /\ compute_target_frequencies w0 w1 (Z.to_nat n) dist = Ok fs.
Proof.
  unfold init_training. intros E. apply bind_ok in E. destruct E as [w [_ E]]. apply bind_ok in E. destruct E as [f [Ef E]].
  apply bind_ok in E. destruct E as [o [Eo E]]. apply bind_ok in E. destruct E as [m [Em E]]. injection E as <-. cbn [r_cfg].
  unfold frequency_points in Ef. apply bind_ok in Ef. destruct Ef as [w0 [E0 Ef]]. apply bind_ok in Ef. destruct Ef as [w1 [E1 Ef]].
  apply bind_ok in Ef. destruct Ef as [n [En Ef]]. apply bind_ok in Ef. destruct Ef as [dist [Ed Ef]].
  apply bind_ok in Ef. destruct Ef as [fp [Eg Ef]]. injection Ef as <-. cbn [fst] in *.
  unfold get_frequency_points in Eg. apply bind_ok in Eg. destruct Eg as [fs [Et Eg]]. injection Eg as <-. cbn [fst snd] in *.
  exists fs, w0, w1, n, dist. split; [|auto].
  set (vl := VList (map (fun f => VFloat (Fin f)) fs)) in *.
  assert (K : lookup (fst o) "target_frequencies" = Some vl).
  { unfold set_outputs in Eo. apply bind_ok in Eo. destruct Eo as [t [_ Eo]]. destruct (py_eqb _ _).
    - apply bind_ok in Eo. destruct Eo as [fs' [_ Eo]]. apply bind_ok in Eo. destruct Eo as [mc [_ Eo]]. injection Eo as <-. cbn [fst].
      rewrite !lookup_set. reflexivity.
    - injection Eo as <-. cbn [fst]. rewrite !lookup_set. reflexivity. }
  unfold set_model in Em. destruct (r_model r); [injection Em as <-; exact K|].
  apply bind_ok in Em. destruct Em as [nc [_ Em]]. apply bind_ok in Em. destruct Em as [m' [_ Em]]. injection Em as <-. cbn [fst].
  rewrite lookup_set. exact K.
Qed.

Lemma start_outputs d files r r' : init_training d files r = Ok r' ->
  (entry (r_cfg r) "type" (VStr "classification") ->
     exists fs mc, get_reals (r_cfg r') "target_frequencies" = Ok fs /\ MaterialCollection files fs [] = Ok mc
       /\ r_materials r' = Some mc
       /\ entry (r_cfg r') "N_materials" (VInt (Z.of_nat (length (material_names mc))))
       /\ entry (r_cfg r') "out_features" (VInt (Z.of_nat (length (material_names mc)))))
  /\ (~ entry (r_cfg r) "type" (VStr "classification") -> r_materials r' = r_materials r /\ entry (r_cfg r') "out_features" (VInt 2)).
Proof.
  unfold init_training. intros E. apply bind_ok in E. destruct E as [w [_ E]]. apply bind_ok in E. destruct E as [f [Ef E]].
  apply bind_ok in E. destruct E as [o [Eo E]]. apply bind_ok in E. destruct E as [m [Em E]]. injection E as <-. cbn [r_cfg r_materials].
  apply frequency_points_user in Ef. destruct Ef as [_ Lf].
  assert (K : forall k, k <> "model" -> lookup (fst m) k = lookup (fst o) k).
  { unfold set_model in Em. destruct (r_model r); [injection Em as <-; reflexivity|].
    apply bind_ok in Em. destruct Em as [nc [_ Em]]. apply bind_ok in Em. destruct Em as [m' [_ Em]]. injection Em as <-. cbn [fst].
    intros k N. rewrite lookup_set. destruct (String.eqb_spec "model" k); [congruence|reflexivity]. }
  assert (Kr : forall k, k <> "model" -> get_reals (fst m) k = get_reals (fst o) k).
  { intros k N. unfold get_reals, getitem. rewrite K by exact N. reflexivity. }
  unfold set_outputs in Eo. apply bind_ok in Eo. destruct Eo as [t [Et Eo]].
  assert (Ht : lookup (r_cfg r) "type" = Some t).
  { rewrite <- Lf by (cbn; intuition discriminate). unfold getitem in Et. destruct (lookup _ _); [injection Et as <-; reflexivity|discriminate]. }
  destruct (py_eqb t (VStr "classification")) eqn:Ec.
  - assert (t = VStr "classification").
    { destruct t; cbn in Ec; try discriminate. apply String.eqb_eq in Ec. subst. reflexivity. }
    subst t. apply bind_ok in Eo. destruct Eo as [fs [Efs Eo]]. apply bind_ok in Eo. destruct Eo as [mc [Emc Eo]]. injection Eo as <-. cbn [fst snd] in *.
    split; [intros _|intros N; exfalso; exact (N Ht)].
    exists fs, mc. unfold entry. rewrite Kr, !K by discriminate. rewrite !lookup_set. repeat split; auto.
    rewrite <- Efs. unfold get_reals, getitem. rewrite !lookup_set. reflexivity.
  - injection Eo as <-. cbn [fst snd] in *. split.
    + intros H. unfold entry in H. rewrite Ht in H. injection H as ->. cbn in Ec. discriminate.
    + intros _. split; [reflexivity|]. unfold entry. rewrite K by discriminate. rewrite lookup_set. reflexivity.
Qed.

(** The model: the one already there, or one built from the new config. *)
Lemma start_model d files r r' : init_training d files r = Ok r' ->
  match r_model r with
  | Some m => r_model r' = Some m
  | None => exists nc m, read_net (r_cfg r') = Ok nc /\ init_network d nc = Ok m /\ r_model r' = Some m
  end.
Proof.
  unfold init_training. intros E. apply bind_ok in E. destruct E as [w [_ E]]. apply bind_ok in E. destruct E as [f [Ef E]].
  apply bind_ok in E. destruct E as [o [Eo E]]. apply bind_ok in E. destruct E as [m [Em E]]. injection E as <-. cbn [r_cfg r_model].
  unfold set_model in Em. destruct (r_model r); [injection Em as <-; reflexivity|].
  apply bind_ok in Em. destruct Em as [nc [En Em]]. apply bind_ok in Em. destruct Em as [m' [Em' Em]]. injection Em as <-. cbn [fst snd].
  exists nc, m'. split; [|auto]. rewrite <- En.
  unfold read_net, get_nat, get_str, get_int, get_real, getitem. rewrite !lookup_set. reflexivity.
Qed.

(** * Restarting *)
Lemma cfg_set_same c k v : lookup c k = Some v -> cfg_set c k v = c.
Proof.
  induction c as [|[a b] r IH]; cbn [lookup cfg_set]; [discriminate|].
  destruct (String.eqb_spec k a) as [->|N]; [intros [= ->]; reflexivity|]. intros H. rewrite IH by exact H. reflexivity.
Qed.

Lemma restart d d' files r r' : init_training d files r = Ok r' -> init_training d' files r' = Ok r'.
Proof.
  intros E. pose proof (start_user _ _ _ _ E) as [SV SL].
  destruct (start_frequencies _ _ _ _ E) as [fs [w0 [w1 [n [dist [Hf [H0 [H1 [Hn [Hd Ht]]]]]]]]]].
  destruct (start_outputs _ _ _ _ E) as [Oc Or]. pose proof (start_model _ _ _ _ E) as M.
  assert (V : exists w, validate_config (r_cfg r) = Ok w).
  { unfold init_training in E. apply bind_ok in E. destruct E as [w [Ew _]]. eauto. }
  destruct V as [w V].
  assert (Mo : exists m, r_model r' = Some m).
  { destruct (r_model r) as [m|]; [eauto|]. destruct M as [nc [m [_ [_ M]]]]. eauto. }
  destruct Mo as [m Mo].
  assert (X : forall k, ~ In k start_keys -> getitem (r_cfg r') k = getitem (r_cfg r) k).
  { intros k N. unfold getitem. rewrite SL by exact N. reflexivity. }
  unfold init_training. rewrite SV, V. cbn [bind].
  assert (F : frequency_points (r_cfg r') = Ok (r_cfg r', map (fun f => wl_to_phys_wl (freq_to_wl f)) fs)).
  { unfold frequency_points. unfold get_item, get_int, get_str in *. rewrite !X by (cbn; intuition discriminate).
    rewrite H0. cbn [bind]. rewrite H1. cbn [bind]. rewrite Hn. cbn [bind]. rewrite Hd. cbn [bind].
    unfold get_frequency_points. rewrite Ht. cbn [bind fst snd]. rewrite cfg_set_same by exact Hf. reflexivity. }
  rewrite F. cbn [bind fst].
  assert (Ou : set_outputs files (r_cfg r') (r_materials r') = Ok (r_cfg r', r_materials r')).
  { unfold set_outputs. rewrite X by (cbn; intuition discriminate).
    assert (T : exists s, entry (r_cfg r) "type" (VStr s)).
    { apply validate_sound in V. destruct V as (_ & _ & W & _). apply (wt_str _ "type" W). cbn; tauto. }
    destruct T as [s T]. rewrite (proj2 (getitem_entry _ _ _) T). cbn [bind py_eqb].
    destruct (String.eqb_spec s "classification") as [->|N].
    - destruct (Oc T) as [fs' [mc [E1 [E2 [E3 [E4 E5]]]]]]. rewrite E1. cbn [bind]. rewrite E2. cbn [bind].
      assert (Emc : lookup (r_cfg r') "material_collection" = Some (VObj true)).
      { clear -E T. unfold init_training in E. apply bind_ok in E. destruct E as [w [_ E]]. apply bind_ok in E. destruct E as [f [Ef E]].
        apply bind_ok in E. destruct E as [o [Eo E]]. apply bind_ok in E. destruct E as [m [Em E]]. injection E as <-. cbn [r_cfg].
        apply frequency_points_user in Ef. destruct Ef as [_ Lf].
        unfold set_outputs in Eo. apply bind_ok in Eo. destruct Eo as [t [Et Eo]].
        unfold getitem in Et. rewrite Lf in Et by (cbn; intuition discriminate). rewrite T in Et. injection Et as <-.
        cbn [py_eqb] in Eo. change (String.eqb "classification" "classification") with true in Eo. cbn iota in Eo.
        apply bind_ok in Eo. destruct Eo as [fs [_ Eo]]. apply bind_ok in Eo. destruct Eo as [mc [_ Eo]]. injection Eo as <-. cbn [fst] in Em.
        unfold set_model in Em. destruct (r_model r); [injection Em as <-; cbn [fst]; rewrite !lookup_set; reflexivity|].
        apply bind_ok in Em. destruct Em as [nc [_ Em]]. apply bind_ok in Em. destruct Em as [m' [_ Em]]. injection Em as <-. cbn [fst].
        rewrite !lookup_set. reflexivity. }
      rewrite (cfg_set_same _ _ _ Emc), (cfg_set_same _ _ _ E4), (cfg_set_same _ _ _ E5), E3. reflexivity.
    - destruct Or as [E1 E2]; [intros H; pose proof (entry_fun _ _ _ _ H T) as Q; injection Q as Q; congruence|].
      rewrite (cfg_set_same _ _ _ E2). reflexivity. }
  rewrite Ou. cbn [bind fst snd]. unfold set_model. rewrite Mo. cbn [bind fst snd]. destruct r'; cbn in *. congruence.
Qed.
