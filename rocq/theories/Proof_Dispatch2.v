(** The choice of the solver, and the config entries TRCWA reads. *)
From Coq Require Import Reals ZArith String List Bool Lra Lia Permutation.
From Verif Require Import Base BaseLemmas PyVal Cplx Model_Config Spec_Config Proof_Config Model_Units Model_Layout Proof_Spectrum2
  Model_Lattice Model_Stack Model_Modes Model_TRCWA Spec_TRCWA Model_Dispatch Spec_Dispatch Proof_Dispatch.
Import ListNotations.
Open Scope string_scope.

Lemma solver_is_iff c s : solver_is c s = true <-> entry c "solver" (VStr s).
Proof.
  unfold solver_is, entry. destruct (lookup c "solver") as [v|]; [|split; discriminate].
  destruct v; cbn; try (split; [discriminate|congruence]).
  destruct (String.eqb_spec s0 s); split; intros; try congruence.
Qed.

Lemma dispatch_invalid argsort eig e c er : validate_config c = Err er ->
  compute_spectrum argsort eig e c true = Err er.
Proof. intros H. unfold compute_spectrum. rewrite H. reflexivity. Qed.

Lemma dispatch_valid argsort eig e c w : validate_config c = Ok w ->
  compute_spectrum argsort eig e c true = compute_spectrum argsort eig e c false.
Proof. intros H. unfold compute_spectrum. rewrite H. reflexivity. Qed.

Lemma dispatch_none argsort eig e c :
  compute_spectrum argsort eig e c false = Ok NoSpectrum <->
  ~ entry c "solver" (VStr "FDTD") /\ ~ entry c "solver" (VStr "TRCWA").
Proof.
  rewrite <- !solver_is_iff. unfold compute_spectrum. cbn [bind].
  destruct (solver_is c "FDTD"); [|destruct (solver_is c "TRCWA")].
  - split; [|intros [H _]; congruence]. destruct (has_nan e); [discriminate|].
    destruct compute_spectrum_fdtd; cbn; discriminate.
  - split; [|intros [_ H]; congruence]. destruct (has_nan e); [discriminate|].
    destruct read_trcwa; cbn; [destruct compute_spectrum_trcwa; cbn|]; discriminate.
  - split; [|reflexivity]. intros _. split; discriminate.
Qed.

Lemma dispatch_fdtd argsort eig e c : entry c "solver" (VStr "FDTD") -> no_nan e ->
  compute_spectrum argsort eig e c false =
  match compute_spectrum_fdtd (List.map (slice_lists e) (List.seq 0%nat (e_nf e))) c with
  | Ok (r, t, c') => Ok (FdtdSpectrum r t c') | Err er => Err er end.
Proof.
  intros H Hn. apply solver_is_iff in H. apply no_nanP in Hn. unfold compute_spectrum. cbn [bind].
  rewrite H, Hn. 
  assert (E : forall n m, seq.map (fun k => slice_lists e k) (seq.iota n m) = map (slice_lists e) (seq n m)).
  { intros n m. reflexivity. }
  rewrite E. destruct compute_spectrum_fdtd as [[[r t] c']|]; reflexivity.
Qed.

Lemma map_seq_is {A} (f : nat -> A) (L : list A) d n : length L = n -> (forall i, (i < n)%nat -> nth i L d = f i) -> L = map f (seq 0 n).
Proof.
  intros E H. apply (nth_ext _ _ d (f 0%nat)); [rewrite map_length, seq_length; exact E|]. intros i Hi. rewrite E in Hi. rewrite map_nth, seq_nth by exact Hi. apply H, Hi.
Qed.
Lemma lists_are e k L : lists_of e k L -> L = slice_lists e k.
Proof.
  intros [E H]. apply (map_seq_is _ L nil); [exact E|]. intros x Hx. destruct (H x (ssrbool.introT ssrnat.ltP Hx)) as [Ey Hy].
  apply (map_seq_is _ _ nil); [exact Ey|]. intros y Hy'. destruct (Hy y (ssrbool.introT ssrnat.ltP Hy')) as [El Hl].
  apply (map_seq_is _ _ C0); [exact El|]. intros l Hl'. unfold slice4. rewrite (Hl l (ssrbool.introT ssrnat.ltP Hl')). reflexivity.
Qed.
Lemma dispatch_fdtd_lists argsort eig e c slices : entry c "solver" (VStr "FDTD") ->
  length slices = e_nf e -> (forall k, is_true (ssrnat.leq (S k) (e_nf e)) -> lists_of e k (nth k slices nil)) -> no_nan e ->
  compute_spectrum argsort eig e c false =
  match compute_spectrum_fdtd slices c with
  | Ok (r, t, c') => Ok (FdtdSpectrum r t c') | Err er => Err er end.
Proof.
  intros H E HL Hn. rewrite (dispatch_fdtd argsort eig e c H Hn).
  rewrite (map_seq_is (slice_lists e) slices nil (e_nf e) E); [reflexivity|]. intros i Hi. apply lists_are, HL. exact (ssrbool.introT ssrnat.ltP Hi).
Qed.

(** * Reading the config *)
Lemma get_int_wt c k z : well_typed c -> In k integer_keys -> entry_num c k (IZR z) -> get_int c k = Ok z.
Proof.
  intros W Hk [v [Hv Hn]]. destruct (W k KInt) as [v' [Hv' Hk']]; [apply keys_of_kind_spec; auto|].
  pose proof (entry_fun _ _ _ _ Hv Hv'). subst v'. unfold get_int. rewrite (proj2 (getitem_entry c k v) Hv). cbn [bind].
  destruct Hk' as [[z' ->]|[b ->]].
  - cbn in Hn. injection Hn as E. apply eq_IZR in E. subst. reflexivity.
  - destruct b; cbn in Hn; injection Hn as E; apply eq_IZR in E; subst; reflexivity.
Qed.

Lemma real_item_num v x : num_of v = Some (Fin x) -> real_item v = Ok x.
Proof. intros H. unfold real_item, to_num. rewrite H. reflexivity. Qed.

Lemma map_res_numbers l xs : numbers l xs -> Model_Config.map_res real_item l = Ok xs.
Proof.
  intros H. induction H as [|v x l xs H H' IH]; [reflexivity|]. cbn. rewrite (real_item_num _ _ H). cbn. rewrite IH. reflexivity.
Qed.

Lemma get_real_num c k x : entry_num c k x -> get_real c k = Ok x.
Proof.
  intros [v [Hv Hn]]. unfold get_real. rewrite (proj2 (getitem_entry c k v) Hv). cbn. exact (real_item_num _ _ Hn).
Qed.

Lemma get_reals_nums c k xs : entry_nums c k xs -> get_reals c k = Ok xs.
Proof.
  intros [l [Hl Hn]]. unfold get_reals. rewrite (proj2 (getitem_entry c k _) Hl). cbn. exact (map_res_numbers _ _ Hn).
Qed.

Lemma order_entry_num c n : well_typed c -> entry_num c "TRCWA_NG" (IZR n) ->
  exists v, getitem c "TRCWA_NG" = Ok v /\ order_entry v = OInt n.
Proof.
  intros W [v [Hv Hn]]. exists v. split; [apply getitem_entry; exact Hv|].
  destruct (W "TRCWA_NG" KInt) as [v' [Hv' Hk']]; [cbn; tauto|].
  pose proof (entry_fun _ _ _ _ Hv Hv'). subst v'.
  destruct Hk' as [[z' ->]|[b ->]]; [|destruct b]; cbn in Hn; injection Hn as E; apply eq_IZR in E; subst; reflexivity.
Qed.

Lemma read_describes c u : well_typed c -> describes c u -> read_trcwa c = Ok u.
Proof.
  intros W [D1 D2 D3 D4 D5 D6 D7 D8 D9 D10]. unfold read_trcwa.
  assert (F : frequencies_entry c = Ok (u_freqs u)).
  { unfold frequencies_entry. destruct (u_freqs u) as [fs|].
    - destruct D5 as [l [Hl Hn]]. rewrite Hl. cbn. rewrite (map_res_numbers _ _ Hn). reflexivity.
    - destruct (lookup c "target_frequencies") as [v|] eqn:E; [|reflexivity]. exfalso. exact (D5 v E). }
  rewrite F. cbn [bind].
  rewrite (get_int_wt c "N_freq" (u_Nf u)); [|exact W|cbn; tauto|exact D4]. cbn [bind].
  rewrite (get_int_wt c "Nx" (u_Nx u)); [|exact W|cbn; tauto|exact D1]. cbn [bind].
  rewrite (get_int_wt c "Ny" (u_Ny u)); [|exact W|cbn; tauto|exact D2]. cbn [bind].
  rewrite (get_int_wt c "N_layers" (u_Nl u)); [|exact W|cbn; tauto|exact D3]. cbn [bind].
  destruct D7 as [l1 [l2 [rest [a [b [HL [Ha [Hb [E1 E2]]]]]]]]].
  rewrite (proj2 (getitem_entry c _ _) HL). cbn.
  rewrite (map_res_numbers _ _ Ha). cbn. rewrite (map_res_numbers _ _ Hb). cbn.
  destruct D6 as [n [En Hn]]. destruct (order_entry_num c n W Hn) as [v [Hv Ev]]. rewrite Hv. cbn [bind].
  rewrite (get_real_num _ _ _ D8). cbn [bind]. rewrite (get_real_num _ _ _ D9). cbn [bind].
  rewrite (get_reals_nums _ _ _ D10). cbn [bind]. rewrite Ev.
  destruct u as [nx ny nl nf fs [ng g1 g2 top bot ts]]. cbn in *. subst. reflexivity.
Qed.

Lemma dispatch_trcwa argsort eig e c w u : validate_config c = Ok w ->
  entry c "solver" (VStr "TRCWA") -> describes c u ->
  compute_spectrum argsort eig e c true =
  match compute_spectrum_trcwa argsort eig e u with
  | Ok (r, t) => Ok (TrcwaSpectrum r t) | Err er => Err er end.
Proof.
  intros Hv Hs Hd. rewrite (dispatch_valid argsort eig e c w Hv). unfold compute_spectrum. cbn [bind].
  destruct (solver_is c "FDTD") eqn:EF.
  { apply solver_is_iff in EF. pose proof (entry_fun _ _ _ _ EF Hs). discriminate. }
  apply solver_is_iff in Hs. rewrite Hs.
  destruct (has_nan e) eqn:En.
  { unfold compute_spectrum_trcwa. rewrite En. reflexivity. }
  destruct (validate_sound _ _ Hv) as [_ [_ [W _]]]. rewrite (read_describes c u W Hd). cbn [bind].
  destruct compute_spectrum_trcwa as [[r t]|]; reflexivity.
Qed.

(** * Preparing the frequencies *)
Lemma frequencies_length w0 w1 n d fs : compute_target_frequencies w0 w1 n d = Ok fs -> length fs = n.
Proof.
  unfold compute_target_frequencies. cbv zeta. intros H.
  destruct (String.eqb d "linear"); [|destruct (String.eqb d "log"); [|discriminate]]; cbn [bind] in H; injection H as <-;
    rewrite <- (Permutation_length (Rsort_perm _)); [|unfold logspace10; rewrite map_length]; apply linspace_length.
Qed.

Lemma in_cfg_set c k v kv : In kv (cfg_set c k v) -> In kv c \/ fst kv = k.
Proof.
  induction c as [|[a b] r IH]; cbn [cfg_set].
  - intros [<-|[]]. auto.
  - destruct (String.eqb_spec k a).
    + subst. intros [<-|H]; cbn; auto.
    + intros [<-|H]; cbn; auto. destruct (IH H); auto.
Qed.

Lemma entry_set_other c k v k' x : k <> k' -> (entry (cfg_set c k v) k' x <-> entry c k' x).
Proof.
  intros H. unfold entry. rewrite lookup_set. destruct (String.eqb_spec k k'); [contradiction|tauto].
Qed.

Section Set_frequencies.
Variables (c : config) (v : pyval).
Let c' := cfg_set c "target_frequencies" v.
Let E k x : String.eqb "target_frequencies" k = false -> (lookup c' k = Some x <-> lookup c k = Some x).
Proof. intros H. unfold c'. rewrite lookup_set, H. tauto. Qed.
Let E' k : String.eqb "target_frequencies" k = false -> lookup c' k = lookup c k.
Proof. intros H. unfold c'. rewrite lookup_set, H. reflexivity. Qed.

Lemma default_not_target k kd : In (k, kd) default_config_entries -> String.eqb "target_frequencies" k = false.
Proof.
  intros H. repeat (destruct H as [H|H]; [injection H as <- _; reflexivity|]). destruct H.
Qed.
Lemma positive_not_target k : In k positive_keys -> String.eqb "target_frequencies" k = false.
Proof.
  intros H. repeat (destruct H as [H|H]; [rewrite <- H; reflexivity|]). destruct H.
Qed.

Lemma valid_set : valid c -> valid c'.
Proof.
  intros [K [N [W R]]]. split; [|split; [|split]].
  - intros k kd H. destruct (K k kd H) as [x Hx]. exists x. apply E; [exact (default_not_target _ _ H)|exact Hx].
  - intros k x H. destruct (in_cfg_set _ _ _ _ H) as [H'|H']; [exact (N k x H')|].
    right. cbn in H'. subst k. cbn. tauto.
  - intros k kd H. destruct (W k kd H) as [x [Hx Hk]]. exists x. split; [|exact Hk]. apply E; [exact (default_not_target _ _ H)|exact Hx].
  - destruct R. split; unfold one_of, entry in *; rewrite ?E' by reflexivity; try assumption.
    + intros k Hk. rewrite E' by exact (positive_not_target _ Hk). exact (ro_pos k Hk).
    + intros k Hk. unfold no_falsy, entry. rewrite E'; [exact (ro_lists k Hk)|].
      repeat (destruct Hk as [Hk|Hk]; [rewrite <- Hk; reflexivity|]). destruct Hk.
Qed.
End Set_frequencies.

Lemma frequencies_ready c w u c' wls : validate_config c = Ok w -> ~ entry c "solver" (VStr "FDTD") ->
  describes c u -> frequency_points c = Ok (c', wls) ->
  validate_config c' = Ok nil
  /\ (forall k x, k <> "target_frequencies" -> (entry c' k x <-> entry c k x))
  /\ exists fs, describes c' (mkTrun (u_Nx u) (u_Ny u) (u_Nl u) (u_Nf u) (Some fs) (u_cfg u))
       /\ Z.of_nat (List.length fs) = u_Nf u.
Proof.
  intros Hv Hs D Hf. pose proof (validate_sound _ _ Hv) as V.
  unfold frequency_points in Hf.
  apply bind_ok in Hf. destruct Hf as [w0 [_ Hf]]. apply bind_ok in Hf. destruct Hf as [w1 [_ Hf]].
  apply bind_ok in Hf. destruct Hf as [n [Hn Hf]]. apply bind_ok in Hf. destruct Hf as [d [_ Hf]].
  apply bind_ok in Hf. destruct Hf as [[ws fs] [Hg Hf]]. cbn [fst snd] in Hf. injection Hf as <- <-.
  unfold get_frequency_points in Hg. apply bind_ok in Hg. destruct Hg as [fs' [Ht Hg]]. injection Hg as _ <-.
  pose proof (frequencies_length _ _ _ _ _ Ht) as Hl.
  destruct V as [K [N [W R]]].
  assert (En : get_int c "N_freq" = Ok (u_Nf u)).
  { apply get_int_wt; [exact W|cbn; tauto|exact (d_Nf _ _ D)]. }
  rewrite En in Hn. injection Hn as <-.
  assert (Hpos : (0 < u_Nf u)%Z).
  { destruct (ro_pos _ R "N_freq") as [v [x [Hx [Hnx Hlt]]]]; [cbn; tauto|].
    destruct (d_Nf _ _ D) as [v' [Hv' Hn']]. pose proof (entry_fun _ _ _ _ Hx Hv'). subst v'.
    rewrite Hn' in Hnx. injection Hnx as <-. inversion Hlt. apply lt_IZR. assumption. }
  set (vl := VList (map (fun f => VFloat (Fin f)) fs')).
  assert (O : forall k x, k <> "target_frequencies" -> (entry (cfg_set c "target_frequencies" vl) k x <-> entry c k x)).
  { intros k x H. apply entry_set_other. congruence. }
  split; [|split; [exact O|]].
  - apply validate_complete; [apply valid_set; split; [|split; [|split]]; assumption|].
    rewrite O by discriminate. exact Hs.
  - exists fs'. split; [|rewrite Hl; lia].
    assert (On : forall k x, k <> "target_frequencies" -> entry_num c k x -> entry_num (cfg_set c "target_frequencies" vl) k x).
    { intros k x H [y [H1 H2]]. exists y. rewrite O by exact H. auto. }
    assert (Ol : forall k x, k <> "target_frequencies" -> entry_nums c k x -> entry_nums (cfg_set c "target_frequencies" vl) k x).
    { intros k x H [y [H1 H2]]. exists y. rewrite O by exact H. auto. }
    destruct D. split; cbn [u_Nx u_Ny u_Nl u_Nf u_freqs u_cfg];
      try (apply On; [discriminate|assumption]); try (apply Ol; [discriminate|assumption]).
    + exists (map (fun f => VFloat (Fin f)) fs'). split; [unfold entry; rewrite lookup_set; reflexivity|].
      clear. unfold numbers. induction fs'; cbn; constructor; auto.
    + destruct d_NG as [m [H1 H2]]. exists m. split; [exact H1|apply On; [discriminate|exact H2]].
    + destruct d_L as [l1 [l2 [rest [a [b [H1 H2]]]]]]. exists l1, l2, rest, a, b. rewrite O by discriminate. auto.
Qed.

(** * The solver name is not validated *)
Section Set_solver.
Variables (c : config) (s : string).
Let c' := replace c "solver" (VStr s).
Let E' k : String.eqb "solver" k = false -> lookup c' k = lookup c k.
Proof.
  intros H. unfold c'. rewrite lookup_replace, H. reflexivity.
Qed.
Lemma positive_not_solver k : In k positive_keys -> String.eqb "solver" k = false.
Proof.
  intros H. repeat (destruct H as [H|H]; [rewrite <- H; reflexivity|]). destruct H.
Qed.

Lemma valid_solver : valid c -> valid c'.
Proof.
  intros [K [N [W R]]]. split; [apply replace_complete; auto|split; [apply replace_known; auto|split]].
  - intros k kd H. destruct (W k kd H) as [x [Hx Hk]].
    destruct (String.eqb_spec "solver" k) as [<-|Hn].
    + exists (VStr s). split; [exact (entry_replace_same _ _ _ _ Hx)|].
      assert (kd = KStr) as ->; [|exists s; reflexivity].
      repeat (destruct H as [H|H]; [try discriminate H; injection H as <-; reflexivity|]). destruct H.
    + exists x. split; [|exact Hk]. apply entry_replace_other; [congruence|exact Hx].
  - destruct R. split; unfold one_of, entry in *; rewrite ?E' by reflexivity; try assumption.
    + intros k Hk. rewrite E' by exact (positive_not_solver _ Hk). exact (ro_pos k Hk).
    + intros k Hk. unfold no_falsy, entry. rewrite E'; [exact (ro_lists k Hk)|].
      repeat (destruct Hk as [Hk|Hk]; [rewrite <- Hk; reflexivity|]). destruct Hk.
Qed.
End Set_solver.

Lemma unknown_solver argsort eig e c w s : validate_config c = Ok w -> s <> "FDTD" -> s <> "TRCWA" ->
  compute_spectrum argsort eig e (replace c "solver" (VStr s)) true = Ok NoSpectrum.
Proof.
  intros Hv N1 N2. pose proof (validate_sound _ _ Hv) as V.
  assert (E : entry (replace c "solver" (VStr s)) "solver" (VStr s)).
  { destruct V as [K _]. destruct (K "solver" KStr) as [x Hx]; [cbn; tauto|]. exact (entry_replace_same _ _ _ _ Hx). }
  rewrite (dispatch_valid _ _ _ _ []).
  - apply dispatch_none. split; intros H; pose proof (entry_fun _ _ _ _ E H) as Q; congruence.
  - apply validate_complete; [exact (valid_solver _ _ V)|].
    intros H; pose proof (entry_fun _ _ _ _ E H) as Q; congruence.
Qed.
