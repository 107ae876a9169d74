(** Theorems on whole runs. *)
From Coq Require Import Reals ZArith String List Bool Lra Lia.
From Verif Require Import Base BaseLemmas Cplx PyVal Spec_Config Model_Config Proof_Config Model_Units Model_Materials Model_EpsGrid Spec_EpsGrid Proof_EpsGrid
  Model_Losses Model_Layout Spec_Layout Proof_Layout Proof_Spectrum Proof_Spectrum2 Proof_Spectrum3 Model_Networks Model_Start Proof_Start Proof_Start2 Model_Training Spec_Training Proof_Training
  Model_TRCWA Model_Modes Model_Dispatch Spec_Start Spec_Dispatch Proof_Dispatch Proof_Dispatch2
  Model_Pipeline Spec_Pipeline Proof_Pipeline Proof_Pipeline2 Proof_Pipeline3.
Import ListNotations.
Open Scope R_scope.
Open Scope string_scope.

Lemma start_lookup d files r r' k : init_training d files r = Ok r' -> ~ In k start_keys -> lookup (r_cfg r') k = lookup (r_cfg r) k.
Proof. intros E N. exact (proj2 (start_user _ _ _ _ E) k N). Qed.

Lemma start_valid d files r r' : init_training d files r = Ok r' -> valid (r_cfg r).
Proof.
  intros E. destruct (validate_config (r_cfg r)) as [w|e] eqn:V; [exact (validate_sound _ _ V)|].
  rewrite (start_invalid d files r e V) in E. discriminate.
Qed.

Lemma config_left_facts c wls : frequency_points c = Ok (c, wls) ->
  (forall k, k <> "PER_LAYER_THICKNESS" -> k <> "FDTD_grid_scaling" -> lookup (config_left c) k = lookup c k)
  /\ (~ entry c "solver" (VStr "FDTD") -> config_left c = c).
Proof.
  intros F. unfold config_left. split.
  - intros k K1 K2. destruct (solver_is c "FDTD"); [|reflexivity]. destruct (prepare_fdtd c) as [[c' w']|e] eqn:P; [|reflexivity]. cbn [fst].
    assert (w' = wls).
    { unfold prepare_fdtd in P. rewrite F in P. cbn [bind fst snd] in P. apply bind_ok in P as (c2 & _ & P). apply bind_ok in P as (s & _ & P). congruence. }
    subst w'. destruct (String.eqb_spec k "target_frequencies") as [->|K3]; [exact (left_freqs c c' wls P F)|].
    destruct (prepare_inv _ _ _ P) as (AG & _). apply AG. cbn. intuition congruence.
  - intros N. destruct (solver_is c "FDTD") eqn:S; [|reflexivity]. exfalso. apply N. unfold solver_is in S. unfold entry.
    destruct (lookup c "solver") as [v|]; [|discriminate]. destruct v; try discriminate. cbn in S. apply String.eqb_eq in S. subst. reflexivity.
Qed.

Section whole.
Variables (argsort : list R -> list nat) (eig : eig_oracle) (nre nim noise : nat -> nat -> nat -> nat -> nat -> R)
  (odd : config -> option (grid4 R) -> list pyfloat -> list pyfloat -> outcome).
Context {O : Type}.
Variables (adam : nat -> model -> O -> R -> model * O) (o0 : O) (d : draws) (files : list mfile) (r r' : run) (m : model) (lr : R) (n : Z).
Hypothesis S0 : started d files r r' m lr n.
Notation ev := (evaluate argsort eig nre nim noise odd).
Notation tr := (train argsort eig nre nim noise odd adam o0 d files r).
Notation ev' := (fun it w => fst (ev (r_materials r') (r_cfg r') it w)).

Lemma started_lr : 0 < lr.
Proof.
  destruct S0 as [E _ [v [E1 E2]] _ _]. destruct (start_valid _ _ _ _ E) as (_ & _ & _ & RO).
  destruct (ro_pos _ RO "learning_rate") as (v' & x & F1 & F2 & F3); [cbn; tauto|].
  pose proof (entry_fun _ _ _ _ E1 F1). subst v'. rewrite E2 in F2. injection F2 as <-. inversion F3. assumption.
Qed.
Lemma started_n : (0 < n)%Z.
Proof.
  destruct S0 as [E _ _ E1 _]. destruct (start_valid _ _ _ _ E) as (_ & _ & _ & RO).
  destruct (ro_pos _ RO "iterations") as (v' & x & F1 & F2 & F3); [cbn; tauto|].
  pose proof (entry_fun _ _ _ _ E1 F1). subst v'. cbn in F2. injection F2 as <-. inversion F3. apply lt_IZR. assumption.
Qed.

Lemma whole_run : tr = match run_training ev' adam (Z.to_nat n) m o0 lr with
       | Ok (w, logs) => Ok (mkRun (config_left (r_cfg r')) (Some w) (r_materials r'), logs)
       | Err e => Err e
       end.
Proof.
  pose proof started_lr as Pl. pose proof started_n as Pn. destruct S0 as [E Em El En (T & HT & PT)].
  rewrite (train_loop argsort eig nre nim noise odd adam o0 d files r r' m lr n T E Em).
  - destruct (Z.ltb_spec 0 n); [reflexivity|lia].
  - apply get_real_num. destruct El as [v [E1 E2]]. exists v. split; [|exact E2]. unfold entry. rewrite (start_lookup _ _ _ _ _ E); [exact E1|cbn; intuition discriminate].
  - lra.
  - unfold get_int, getitem. rewrite (start_lookup _ _ _ _ _ E) by (cbn; intuition discriminate). unfold entry in En. rewrite En. reflexivity.
  - exact (get_reals_nums _ _ _ HT).
  - exact PT.
Qed.


Lemma composition :
  (forall w logs, run_training ev' adam (Z.to_nat n) m o0 lr = Ok (w, logs) ->
     exists c2, tr = Ok (mkRun c2 (Some w) (r_materials r'), logs)
       /\ (forall k, k <> "PER_LAYER_THICKNESS" -> k <> "FDTD_grid_scaling" -> lookup c2 k = lookup (r_cfg r') k)
       /\ (~ entry (r_cfg r) "solver" (VStr "FDTD") -> c2 = r_cfg r'))
  /\ (forall e, run_training ev' adam (Z.to_nat n) m o0 lr = Err e -> tr = Err e).
Proof.
  destruct (start_points _ _ _ _ (st_init _ _ _ _ _ _ _ S0)) as [wls F]. destruct (config_left_facts _ _ F) as [F1 F2].
  split.
  - intros w logs E. exists (config_left (r_cfg r')). rewrite whole_run, E. split; [reflexivity|]. split; [exact F1|].
    intros N. apply F2. unfold entry. rewrite (start_lookup _ _ _ _ _ (st_init _ _ _ _ _ _ _ S0)); [exact N|cbn; intuition discriminate].
  - intros e E. rewrite whole_run, E. reflexivity.
Qed.

(** * Without noise *)
Lemma quiet_grid c w mats nre1 nim1 noise1 nre2 nim2 noise2 : entry c "add_noise" (VBool false) ->
  grid_of_run (mkRun c (Some w) mats) nre1 nim1 noise1 = grid_of_run (mkRun c (Some w) mats) nre2 nim2 noise2.
Proof.
  intros E. unfold grid_of_run. cbn [r_model r_cfg r_materials]. destruct (read_eps c mats) as [e|er] eqn:R; [|reflexivity]. cbn [bind].
  assert (A : e_add_noise e = false).
  { unfold read_eps in R. rewrite (proj2 (getitem_entry _ _ _) E) in R.
    repeat match type of R with
    | bind ?x _ = Ok _ => destruct x; [cbn [bind] in R|discriminate R]
    end. injection R as <-. reflexivity. }
  destruct (with_model e w) as [net|er]; [|reflexivity]. cbn [bind]. unfold model_to_eps_grid, classification_grid, regression_grid. rewrite A. reflexivity.
Qed.

Lemma quiet_eval c mats i j w : entry c "add_noise" (VBool false) -> ev mats c i w = ev mats c j w.
Proof. intros E. unfold evaluate. rewrite (quiet_grid c w mats (nre i) (nim i) (noise i) (nre j) (nim j) (noise j) E). reflexivity. Qed.

Hypothesis Q : entry (r_cfg r) "add_noise" (VBool false).
Lemma quiet_start : entry (r_cfg r') "add_noise" (VBool false).
Proof. unfold entry. rewrite (start_lookup _ _ _ _ _ (st_init _ _ _ _ _ _ _ S0)); [exact Q|cbn; intuition discriminate]. Qed.

Lemma run_failures r2 logs : tr = Ok (r2, logs) ->
  exists ws out lrs, history ev' adam m lr (Z.to_nat n) ws out lrs /\
    forall k, (k < Z.to_nat n)%nat -> out k = SpectrumValueError ->
      (forall j, kept_for out k j -> ws (S k) = ws j /\ (S k < Z.to_nat n -> out (S k) = out j)%nat)
      /\ ((forall j, ~ kept_for out k j) -> r_model r2 = Some (ws k)
            /\ forall j, (k <= j < Z.to_nat n)%nat -> out j = SpectrumValueError /\ ws j = ws k).
Proof.
  rewrite whole_run. destruct (run_training _ adam (Z.to_nat n) m o0 lr) as [[w lg]|e] eqn:E; [|discriminate].
  intros H. assert (Hr : r2 = mkRun (config_left (r_cfg r')) (Some w) (r_materials r')) by congruence. subst r2. cbn [r_model].
  destruct (failures ev' adam m o0 lr (fun i j w => f_equal fst (quiet_eval _ _ i j w quiet_start)) (Z.to_nat n) w lg E) as (ws & out & lrs & Hh & Hf).
  exists ws, out, lrs. split; [exact Hh|]. intros k Hk Ek. destruct (Hf k Hk Ek) as [A B]. split; [exact A|].
  intros K. destruct (B K) as [-> B']. auto.
Qed.

Lemma best_again r2 ll wl l1s : tr = Ok (r2, (ll, wl, l1s)) ->
  exists ws out lrs, history ev' adam m lr (Z.to_nat n) ws out lrs /\
    ((forall k, (k < Z.to_nat n)%nat -> ~ renormalised_at out k) -> (exists l, In l ll /\ flt l PInf = true) ->
     exists m2 l l1, r_model r2 = Some m2 /\ In l ll /\ (forall l', In l' ll -> flt l' l = false)
       /\ forall it, fst (ev (r_materials r2) (r_cfg r2) it m2) = Done l l1 false).
Proof.
  rewrite whole_run. destruct (run_training _ adam (Z.to_nat n) m o0 lr) as [[w lg]|e] eqn:E; [|discriminate].
  intros H. assert (Hr : r2 = mkRun (config_left (r_cfg r')) (Some w) (r_materials r')) by congruence.
  assert (Hl : lg = (ll, wl, l1s)) by congruence. subst r2 lg. clear H. cbn [r_model r_materials r_cfg].
  pose proof (run_inv ev' adam m o0 lr (Z.to_nat n) w _ E) as (s & Hs & Ew & El). injection El as -> _ _.
  pose proof (inv_holds _ _ _ _ _ _ _ Hs) as I. pose proof (history_holds _ _ _ _ _ _ _ Hs) as Hh.
  exists (wsf ev' adam m o0 lr), (outf ev' adam m o0 lr), (lrf ev' adam m o0 lr). split; [exact Hh|].
  intros NR (l & Hl & Fl). rewrite (i_loss _ _ _ _ _ _ _ I) in *. apply in_losses in Hl. destruct Hl as (k & l1 & rn & Hk & Ek).
  destruct (first_record (outf ev' adam m o0 lr) (Z.to_nat n)) as (b & lb & Hb & Rb & Mb & Nb); [exists k, l, l1, rn; auto|].
  destruct Rb as [(lb1 & rb & Eb) Rb].
  assert (rb = false) by (destruct rb; [exfalso; apply (NR b Hb); exists lb, lb1; exact Eb|reflexivity]). subst rb.
  assert (w = wsf ev' adam m o0 lr b).
  { rewrite Ew. unfold load_best. assert (Sb : stored (outf ev' adam m o0 lr) (Z.to_nat n) b).
    { split; [exact Hb|]. split; [exists lb; split; [eauto|exact Rb]|exact (NR b Hb)]. }
    destruct (i_state _ _ _ _ _ _ _ I) as [[_ N]|(i & -> & Si & Mi)]; [exfalso; exact (N b Sb)|].
    pose proof (Mi b Sb) as Hi. destruct (Nat.eq_dec i b) as [->|NE]; [reflexivity|]. exfalso.
    destruct Si as (S1 & (l' & S2) & _). exact (Nb i l' ltac:(lia) S2). }
  exists w, lb, lb1. split; [reflexivity|]. split; [apply in_losses; exists b, lb1, false; auto|]. split.
  - intros l' Hl'. apply in_losses in Hl'. destruct Hl' as (j & l1' & rn' & Hj & Ej). exact (Mb j l' l1' rn' Hj Ej).
  - intros it. pose proof (st_thickness _ _ _ _ _ _ _ S0) as (T & HT & PT).
    destruct (train_settled argsort eig nre nim noise odd d files r r' T (st_init _ _ _ _ _ _ _ S0) (get_reals_nums _ _ _ HT) PT) as [_ St].
    rewrite St. rewrite (quiet_eval _ _ it b w quiet_start). rewrite H. exact Eb.
Qed.
End whole.
