(** Training can be continued. *)
From Coq Require Import Reals ZArith String List Bool Lra Lia.
From Verif Require Import Base BaseLemmas Cplx PyVal Spec_Config Model_Config Proof_Config Model_Materials Model_EpsGrid
  Model_Losses Model_Layout Proof_Spectrum Proof_Spectrum2 Model_Networks Model_Start Proof_Start Proof_Start2 Model_Training Spec_Training Proof_Training
  Model_TRCWA Model_Modes Model_Dispatch Spec_Start Spec_Dispatch Proof_Dispatch2
  Model_Pipeline Spec_Pipeline Proof_Pipeline Proof_Pipeline2 Proof_Pipeline3 Proof_Pipeline4.
Import ListNotations.
Open Scope R_scope.
Open Scope string_scope.

Section spread.
Variables (c : config) (v : pyval) (w : list (option pyfloat)) (n : Z).
Hypothesis V : validate_config c = Ok w.
Hypothesis E : entry c "PER_LAYER_THICKNESS" (VList [v]).
Hypothesis En : get_int c "N_layers" = Ok n.
Hypothesis Hn : (1 < n)%Z.
Let l' := repeat v (Z.to_nat n).
Let c1 := cfg_set c "PER_LAYER_THICKNESS" (VList l').

Let L1 k : k <> "PER_LAYER_THICKNESS" -> lookup c1 k = lookup c k.
Proof. intros N. unfold c1. rewrite lookup_set. destruct (String.eqb_spec "PER_LAYER_THICKNESS" k); [congruence|reflexivity]. Qed.
Let EO k x : k <> "PER_LAYER_THICKNESS" -> (entry c1 k x <-> entry c k x).
Proof. intros N. unfold entry. rewrite L1 by exact N. reflexivity. Qed.
Let ES : entry c1 "PER_LAYER_THICKNESS" (VList l').
Proof. unfold entry, c1. rewrite lookup_set. reflexivity. Qed.

Lemma spread_valid : valid c1.
Proof.
  destruct (validate_sound _ _ V) as (HC & HK & W & RO). split; [|split; [|split]].
  - intros k kd Hk. destruct (String.string_dec k "PER_LAYER_THICKNESS") as [->|N]; [eexists; exact ES|].
    destruct (HC k kd Hk) as [x Hx]. exists x. apply EO; assumption.
  - intros k x Hx. assert (In (k, x) c \/ k = "PER_LAYER_THICKNESS").
    { clear -Hx. unfold c1 in Hx. clear c1. induction c as [|[a b] r IH]; cbn [cfg_set] in Hx.
      - destruct Hx as [Hx|[]]. injection Hx as <- _. auto.
      - destruct (String.eqb_spec "PER_LAYER_THICKNESS" a) as [<-|N]; destruct Hx as [Hx|Hx].
        + injection Hx as <- _. auto.
        + left. right. exact Hx.
        + left. left. exact Hx.
        + destruct (IH Hx) as [H|H]; [left; right; exact H|auto]. }
    destruct H as [H| ->]; [exact (HK _ _ H)|]. left. exists KList. cbn. tauto.
  - intros k kd Hk. destruct (String.string_dec k "PER_LAYER_THICKNESS") as [->|N].
    + exists (VList l'). split; [exact ES|]. assert (kd = KList) as ->; [|cbn; eauto].
      cbn in Hk. repeat (destruct Hk as [Hk|Hk]; [try discriminate Hk; injection Hk as <-; reflexivity|]). contradiction.
    + destruct (W k kd Hk) as (x & Hx & Kx). exists x. split; [apply EO; assumption|exact Kx].
  - destruct RO as [R1 R2 R3 R4 R5 R6 R7 R8 R9 R10 R11 R12 R13 R14].
    constructor.
    + destruct R1 as (a & b & ? & ? & ?). exists a, b. rewrite !EO by discriminate. auto.
    + destruct R2 as (a & b & ? & ? & ?). exists a, b. rewrite !EO by discriminate. auto.
    + destruct R3 as (v0 & v1 & rest & x0 & x1 & vm & m & d & vg & g & Q).
      exists v0, v1, rest, x0, x1, vm, m, d, vg, g. rewrite !EO by discriminate. exact Q.
    + intros k Hk. destruct (R4 k Hk) as (x & y & Ex & Q). exists x, y. rewrite EO; auto.
      intros ->. simpl in Hk. repeat (destruct Hk as [Hk|Hk]; [discriminate|]). contradiction.
    + destruct R5 as (vn & vo & m & o & q & Q). exists vn, vo, m, o, q. rewrite !EO by discriminate. exact Q.
    + destruct R6 as (vn & vo & m & o & q & Q). exists vn, vo, m, o, q. rewrite !EO by discriminate. exact Q.
    + destruct R7 as (s & ? & ?). exists s. rewrite !EO by discriminate. auto.
    + destruct R8 as (r0 & r1 & rest & a0 & a1 & b0 & b1 & Q). exists r0, r1, rest, a0, a1, b0, b1.
      rewrite !EO by discriminate. exact Q.
    + intros k Hk x Hx. destruct (String.string_dec k "PER_LAYER_THICKNESS") as [->|N].
      * pose proof (entry_fun _ _ _ _ Hx ES). subst x. right. exists l'. split; [reflexivity|].
        intros y Hy. apply repeat_spec in Hy. subst y. destruct (R9 "PER_LAYER_THICKNESS" Hk _ E) as [[s Hs]|[l [Hl Ht]]]; [discriminate|].
        injection Hl as <-. apply Ht. left. reflexivity.
      * rewrite EO in Hx by auto. exact (R9 k Hk x Hx).
    + destruct R10 as (l0 & vn & n0 & E0 & En0 & Nn & Q). exists l', vn, n0.
      split; [exact ES|]. rewrite EO by discriminate. split; auto. split; auto. left. unfold l'. rewrite repeat_length.
      assert (n0 = n); [|lia]. unfold get_int in En. rewrite (proj2 (getitem_entry _ _ _) En0) in En. cbn [bind] in En.
      destruct vn; cbn in Nn, En; try discriminate; injection En as <-; injection Nn as Nn; apply eq_IZR; rewrite <- Nn;
        repeat match goal with |- context [if ?b then _ else _] => destruct b end; reflexivity.
    + destruct R11 as (s & ? & ?). exists s. rewrite !EO by discriminate. auto.
    + destruct R12 as (s & ? & ?). exists s. rewrite !EO by discriminate. auto.
    + destruct R13 as (s & ? & ?). exists s. rewrite !EO by discriminate. auto.
    + destruct R14 as (s & ? & ?). exists s. rewrite !EO by discriminate. auto.
Qed.

Lemma spread_accepted : exists w', validate_config c1 = Ok w'.
Proof.
  pose proof spread_valid as V1. destruct V1 as (HC & HK & W & RO). destruct (wt_str c1 "solver" W) as [s Hs]; [cbn; tauto|].
  destruct (String.string_dec s "FDTD") as [->|N].
  - assert (G : exists w', check_grid_scale c1 = Ok w').
    { assert (G : check_grid_scale c = Ok w).
      { unfold validate_config in V. rewrite !bind_tt_ok in V. destruct V as (_ & _ & _ & V').
        apply EO in Hs; [|discriminate]. rewrite (proj2 (getitem_entry _ _ _) Hs) in V'. exact V'. }
      unfold check_grid_scale, fdtd_scaling, getitem in *.
      rewrite (L1 "physical_wavelength_range"), (L1 "FDTD_min_gridpoints_per_unit_magnitude"), (L1 "FDTD_pml_thickness"), (L1 "FDTD_free_space_distance") by discriminate.
      rewrite (proj1 (getitem_entry _ _ _) (proj2 (getitem_entry c "PER_LAYER_THICKNESS" (VList [v])) E)) in G.
      unfold entry in ES. rewrite ES.
      match type of G with bind ?x _ = _ => destruct x as [sc|]; [cbn [bind] in *|discriminate] end.
      match type of G with bind ?x _ = _ => destruct x as [p0|]; [cbn [bind] in *|discriminate] end.
      match type of G with bind ?x _ = _ => destruct x as [pml|]; [cbn [bind] in *|discriminate] end.
      match type of G with bind ?x _ = _ => destruct x as [f0|]; [cbn [bind] in *|discriminate] end.
      match type of G with bind ?x _ = _ => destruct x as [free|]; [cbn [bind] in *|discriminate] end.
      cbn [map_res] in G. apply bind_ok in G as (y & Ey & _). apply map_res_ok. intros x Hx. apply repeat_spec in Hx. subst x. eauto. }
    destruct G as [w' G]. exists w'. unfold validate_config. rewrite !bind_tt_ok.
    split; [apply check_keys_ok; auto|]. split; [apply types_ok_iff; auto|]. split; [apply ranges_iff; auto|].
    rewrite (proj2 (getitem_entry _ _ _) Hs). exact G.
  - exists []. apply validate_complete; [split; auto|]. intros Q. pose proof (entry_fun _ _ _ _ Q Hs) as X. injection X as X. congruence.
Qed.
End spread.

Lemma concat_one {A} (v : A) n : concat (repeat [v] n) = repeat v n.
Proof. induction n as [|n IH]; [reflexivity|]. cbn. rewrite IH. reflexivity. Qed.

Lemma left_accepted c w wls : validate_config c = Ok w -> frequency_points c = Ok (c, wls) -> exists w', validate_config (config_left c) = Ok w'.
Proof.
  intros V F. unfold config_left. destruct (solver_is c "FDTD"); [|eauto]. destruct (prepare_fdtd c) as [[c' w']|e] eqn:P; [|eauto]. cbn [fst].
  unfold prepare_fdtd in P. rewrite F in P. cbn [bind fst snd] in P. apply bind_ok in P as (c1 & S1 & P). apply bind_ok in P as (s & _ & P). injection P as <- _.
  rewrite validate_set.
  - unfold spread_thickness in S1. apply bind_ok in S1 as (v & Ev & S1). apply bind_ok in S1 as (n & En & S1). destruct v as [| | | |l|]; try discriminate.
    injection S1 as <-. apply getitem_entry in Ev. destruct (Nat.eqb_spec (length l) 1) as [El|El]; cbn [andb]; [|eauto].
    destruct (Z.ltb_spec 1 n) as [Hn|Hn]; [|eauto]. destruct l as [|v [|]]; try discriminate. rewrite concat_one.
    exact (spread_accepted c v w n V Ev En Hn).
  - intros x Hx. assert (B : forallb (fun x => negb (String.eqb x "FDTD_grid_scaling")) ("FDTD_grid" :: required_keys) = true) by reflexivity.
    rewrite forallb_forall in B. specialize (B x Hx). destruct (String.eqb_spec x "FDTD_grid_scaling"); [discriminate|assumption].
  - cbn. tauto.
Qed.

Lemma lookup_of_set c k v : cfg_set c k v = c -> lookup c k = Some v.
Proof. intros H. rewrite <- H, lookup_set, String.eqb_refl. reflexivity. Qed.

Lemma continue_init d d' files r r' w : init_training d files r = Ok r' ->
  init_training d' files (mkRun (config_left (r_cfg r')) (Some w) (r_materials r')) = Ok (mkRun (config_left (r_cfg r')) (Some w) (r_materials r')).
Proof.
  intros E. destruct (start_points _ _ _ _ E) as [wls F]. pose proof (restart d d' files r r' E) as E2.
  set (c := r_cfg r') in *. destruct (config_left_facts c wls F) as [CL _]. set (c2 := config_left c) in *.
  unfold init_training in E2. fold c in E2. apply bind_ok in E2 as (vw & V & E2). destruct (left_accepted c vw wls V F) as [w2 V2].
  rewrite F in E2. cbn [bind fst snd] in E2. apply bind_ok in E2 as (o & Eo & E2). apply bind_ok in E2 as (mm & Em & E2).
  apply (f_equal (fun x => match x with Ok a => a | Err _ => r' end)) in E2.
  assert (Ec : fst mm = c) by (unfold c; rewrite <- E2; reflexivity). assert (Ema : snd o = r_materials r') by (rewrite <- E2; reflexivity).
  assert (Eoc : fst o = c).
  { destruct (r_model r') as [m0|] eqn:Mo; [cbn in Em; injection Em as <-; exact Ec|]. exfalso. pose proof (f_equal r_model E2) as X. rewrite Mo in X. discriminate X. }
  clear E2 Ec Em mm. unfold init_training. cbn [r_cfg r_materials r_model]. fold c2 in V2. rewrite V2. cbn [bind].
  assert (G : forall k, k <> "PER_LAYER_THICKNESS" -> k <> "FDTD_grid_scaling" -> getitem c2 k = getitem c k) by (intros k K1 K2; unfold getitem; rewrite (CL k K1 K2); reflexivity).
  assert (F2 : frequency_points c2 = Ok (c2, wls)).
  { unfold frequency_points, get_item, get_int, get_str in *. rewrite !G by discriminate.
    repeat match type of F with bind ?x _ = Ok _ => destruct x; [cbn [bind] in F |- *|discriminate F] end.
    match type of F with Ok (cfg_set c "target_frequencies" ?V, ?y) = _ =>
      assert (F1 : cfg_set c "target_frequencies" V = c) by congruence; assert (F3 : y = wls) by congruence end.
    rewrite (cfg_set_same c2) by (rewrite (CL "target_frequencies") by discriminate; apply lookup_of_set; exact F1). rewrite F3. reflexivity. }
  rewrite F2. cbn [bind fst].
  assert (O2 : set_outputs files c2 (r_materials r') = Ok (c2, r_materials r')).
  { unfold set_outputs in *. unfold get_reals in *. rewrite !G by discriminate.
    destruct (getitem c "type") as [t|]; [cbn [bind] in *|discriminate]. destruct (py_eqb t (VStr "classification")).
    - apply bind_ok in Eo as (fs & -> & Eo). apply bind_ok in Eo as (mc & Emc & Eo). cbn [bind]. rewrite Emc. cbn [bind]. injection Eo as <-. cbn [fst snd] in *.
      assert (X : forall k, lookup c k = if String.eqb "out_features" k then Some (VInt (Z.of_nat (length (material_names mc))))
         else if String.eqb "N_materials" k then Some (VInt (Z.of_nat (length (material_names mc)))) else if String.eqb "material_collection" k then Some (VObj true) else lookup c k).
      { intros k. rewrite <- Eoc at 1. rewrite !lookup_set. reflexivity. }
      rewrite (cfg_set_same c2 "material_collection") by (rewrite CL by discriminate; rewrite X; reflexivity).
      rewrite (cfg_set_same c2 "N_materials") by (rewrite CL by discriminate; rewrite X; reflexivity).
      rewrite (cfg_set_same c2 "out_features") by (rewrite CL by discriminate; rewrite X; reflexivity). rewrite Ema. reflexivity.
    - injection Eo as <-. cbn [fst snd] in *. rewrite (cfg_set_same c2 "out_features"); [reflexivity|]. rewrite CL by discriminate. apply lookup_of_set. exact Eoc. }
  rewrite O2. reflexivity.
Qed.

(** The thicknesses left are positive too. *)
Lemma left_positive c wls T : frequency_points c = Ok (c, wls) -> entry_nums c "PER_LAYER_THICKNESS" T -> (forall x, In x T -> 0 < x) ->
  exists T', entry_nums (config_left c) "PER_LAYER_THICKNESS" T' /\ forall x, In x T' -> 0 < x.
Proof.
  intros F (l & El & Hl) PT. unfold config_left. destruct (solver_is c "FDTD"); [|exists T; split; [exists l; auto|exact PT]].
  destruct (prepare_fdtd c) as [[c' w']|e] eqn:P; [cbn [fst]|exists T; split; [exists l; auto|exact PT]].
  destruct (prepare_inv _ _ _ P) as (_ & (l0 & n & L1 & L2 & L3) & _). pose proof (entry_fun _ _ _ _ El L1) as X. injection X as <-.
  destruct (Nat.eqb_spec (length l) 1) as [E1|E1]; cbn [andb] in L3; [|exists T; split; [exists l; auto|exact PT]].
  destruct (1 <? n)%Z; [|exists T; split; [exists l; auto|exact PT]].
  destruct l as [|v [|]]; try discriminate. inversion Hl as [|a x l2 T2 Hx HT2]; subst. inversion HT2; subst. rewrite concat_one in L3.
  exists (repeat x (Z.to_nat n)). split.
  - exists (repeat v (Z.to_nat n)). split; [exact L3|]. clear -Hx. induction (Z.to_nat n) as [|k IH]; constructor; auto.
  - intros y Hy. apply repeat_spec in Hy. subst y. apply PT. left. reflexivity.
Qed.

Section continue.
Variables (argsort : list R -> list nat) (eig : eig_oracle) (nre nim noise : nat -> nat -> nat -> nat -> nat -> R)
  (odd : config -> option (grid4 R) -> list pyfloat -> list pyfloat -> outcome).
Context {O : Type}.
Variables (adam : nat -> model -> O -> R -> model * O) (o0 : O) (d : draws) (files : list mfile) (r r' : run) (m : model) (lr : R) (n : Z).
Hypothesis S0 : started d files r r' m lr n.

Lemma continues r2 logs d' : train argsort eig nre nim noise odd adam o0 d files r = Ok (r2, logs) ->
  exists m2, r_model r2 = Some m2 /\ started d' files r2 r2 m2 lr n.
Proof.
  rewrite (whole_run argsort eig nre nim noise odd adam o0 d files r r' m lr n S0).
  destruct (run_training _ adam (Z.to_nat n) m o0 lr) as [[w lg]|e]; [|discriminate].
  intros H. assert (Hr : r2 = mkRun (config_left (r_cfg r')) (Some w) (r_materials r')) by congruence. subst r2. clear H.
  exists w. split; [reflexivity|]. destruct S0 as [E Em (v & El & Nl) En (T & HT & PT)]. destruct (start_points _ _ _ _ E) as [wls F].
  destruct (config_left_facts _ _ F) as [CL _]. split; cbn [r_cfg r_model].
  - exact (continue_init d d' files r r' w E).
  - reflexivity.
  - exists v. split; [|exact Nl]. unfold entry. rewrite CL by discriminate. rewrite (start_lookup _ _ _ _ _ E) by (cbn; intuition discriminate). exact El.
  - unfold entry. rewrite CL by discriminate. rewrite (start_lookup _ _ _ _ _ E) by (cbn; intuition discriminate). exact En.
  - apply (left_positive _ wls T F); [|exact PT]. destruct HT as (l & E1 & E2). exists l. split; [|exact E2]. unfold entry.
    rewrite (start_lookup _ _ _ _ _ E) by (cbn; intuition discriminate). exact E1.
Qed.
End continue.

Lemma first_loss {W O} (evl : nat -> W -> outcome) (adam : nat -> W -> O -> R -> W * O) w0 o0 lr n w ll wl l1s l l1 b :
  (0 < n)%nat -> evl 0%nat w0 = Done l l1 b -> run_training evl adam n w0 o0 lr = Ok (w, (ll, wl, l1s)) -> exists rest, ll = l :: rest.
Proof.
  intros Hn Ev E. pose proof (run_inv evl adam w0 o0 lr n w _ E) as (s & Hs & _ & El). injection El as -> _ _.
  pose proof (inv_holds _ _ _ _ _ _ _ Hs) as I. pose proof (history_holds _ _ _ _ _ _ _ Hs) as Hh.
  rewrite (i_loss _ _ _ _ _ _ _ I). unfold losses. destruct n as [|n]; [lia|]. cbn [seq flat_map].
  rewrite (h_out _ _ _ _ _ _ _ _ Hh 0%nat) by lia. rewrite (h_start _ _ _ _ _ _ _ _ Hh), Ev. cbn. eauto.
Qed.

Section resume.
Variables (argsort : list R -> list nat) (eig : eig_oracle) (nre nim noise : nat -> nat -> nat -> nat -> nat -> R)
  (odd : config -> option (grid4 R) -> list pyfloat -> list pyfloat -> outcome).
Context {O : Type}.
Variables (adam : nat -> model -> O -> R -> model * O) (o0 : O) (d : draws) (files : list mfile) (r r' : run) (m : model) (lr : R) (n : Z).
Hypothesis S0 : started d files r r' m lr n.
Hypothesis Q : entry (r_cfg r) "add_noise" (VBool false).
Notation ev := (evaluate argsort eig nre nim noise odd).
Notation tr := (train argsort eig nre nim noise odd adam o0).

Lemma resume r2 ll wl l1s : tr d files r = Ok (r2, (ll, wl, l1s)) ->
  exists ws out lrs, history (fun it x => fst (ev (r_materials r') (r_cfg r') it x)) adam m lr (Z.to_nat n) ws out lrs /\
    ((forall k, (k < Z.to_nat n)%nat -> ~ renormalised_at out k) -> (exists l, In l ll /\ flt l PInf = true) ->
     exists l, In l ll /\ (forall l', In l' ll -> flt l' l = false)
       /\ forall d' r3 ll' wl' l1s', tr d' files r2 = Ok (r3, (ll', wl', l1s')) -> exists rest, ll' = l :: rest).
Proof.
  intros E. destruct (best_again argsort eig nre nim noise odd adam o0 d files r r' m lr n S0 Q r2 ll wl l1s E) as (ws & out & lrs & Hh & B).
  exists ws, out, lrs. split; [exact Hh|]. intros NR FL. destruct (B NR FL) as (m2 & l & l1 & Em & Hl & Hm & Hev).
  exists l. split; [exact Hl|]. split; [exact Hm|]. intros d' r3 ll' wl' l1s' E2.
  destruct (continues argsort eig nre nim noise odd adam o0 d files r r' m lr n S0 r2 _ d' E) as (m2' & Em' & S2).
  assert (m2' = m2) by congruence. subst m2'.
  rewrite (whole_run argsort eig nre nim noise odd adam o0 d' files r2 r2 m2 lr n S2) in E2.
  destruct (run_training _ adam (Z.to_nat n) m2 o0 lr) as [[w lg]|e] eqn:Er; [|discriminate].
  assert (lg = (ll', wl', l1s')) by congruence. subst lg. pose proof (started_n _ _ _ _ _ _ _ S2) as Pn.
  refine (first_loss _ _ _ _ _ _ _ _ _ _ l l1 false _ _ Er); [lia|]. apply Hev.
Qed.
End resume.

Lemma in_kinds k kd : existsb (fun p => String.eqb (fst p) k && match snd p, kd with KInt, KInt | KFloat, KFloat | KBool, KBool | KStr, KStr | KList, KList | KAny, KAny => true | _, _ => false end) default_config_entries = true ->
  In (k, kd) default_config_entries.
Proof.
  intros H. apply existsb_exists in H. destruct H as ([a b] & Hin & H). cbn [fst snd] in H. apply andb_prop in H. destruct H as [H1 H2].
  apply String.eqb_eq in H1. subst a. destruct b, kd; try discriminate; exact Hin.
Qed.
Fixpoint kinds_once (l : list (string * kind)) : bool :=
  match l with [] => true | (k, _) :: r => negb (in_strings k (map fst r)) && kinds_once r end.
Lemma kind_fun k kd kd' : In (k, kd) default_config_entries -> In (k, kd') default_config_entries -> kd = kd'.
Proof.
  assert (N : kinds_once default_config_entries = true) by reflexivity.
  intros H H'. revert N H H'. generalize default_config_entries. intros l. induction l as [|[a b] l IH]; cbn [kinds_once]; intros N H H'; [contradiction|].
  apply andb_prop in N. destruct N as [N1 N2].
  assert (X : forall q, In (a, q) l -> False).
  { intros q Hq. assert (Y : in_strings a (map fst l) = true) by (apply in_strings_iff, in_map_iff; exists (a, q); auto). rewrite Y in N1. discriminate. }
  destruct H as [H|H], H' as [H'|H'].
  - congruence.
  - injection H as -> ->. destruct (X _ H').
  - injection H' as -> ->. destruct (X _ H).
  - auto.
Qed.
Lemma replace_typed c k v kd : well_typed c -> In (k, kd) default_config_entries -> has_kind v kd -> well_typed (replace c k v).
Proof.
  intros W Hk Hv k' kd' Hk'. destruct (String.string_dec k k') as [<-|N].
  - assert (kd' = kd) as -> by (eapply kind_fun; eauto). destruct (W k kd Hk) as (x & Hx & _). exists v. split; [eapply entry_replace_same; eauto|exact Hv].
  - destruct (W k' kd' Hk') as (x & Hx & Kx). exists x. split; [apply entry_replace_other; auto|exact Kx].
Qed.
