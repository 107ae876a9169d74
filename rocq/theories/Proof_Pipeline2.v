(** A training run is the loop of Model_Training.v for the config it starts with. *)
From Coq Require Import Reals ZArith String List Bool Lra Lia.
From Verif Require Import Base BaseLemmas Cplx PyVal Spec_Config Model_Config Proof_Config Model_Units Model_Materials Model_EpsGrid Spec_EpsGrid Proof_EpsGrid
  Model_Losses Model_Layout Proof_Spectrum2 Model_Networks Model_Start Proof_Start Proof_Start2 Model_Training Model_TRCWA Model_Modes Model_Dispatch Spec_Start Spec_Dispatch Proof_Dispatch2
  Model_Pipeline Proof_Pipeline.
Import ListNotations.
Open Scope R_scope.
Open Scope string_scope.

Lemma start_points d files r r' : init_training d files r = Ok r' -> exists wls, frequency_points (r_cfg r') = Ok (r_cfg r', wls).
Proof.
  intros E. destruct (start_user _ _ _ _ E) as [_ L].
  destruct (start_frequencies _ _ _ _ E) as (fs & w0 & w1 & n & dist & Hf & H0 & H1 & Hn & Hd & Ht).
  unfold frequency_points, get_item, get_int, get_str, getitem in *.
  rewrite (L "physical_wavelength_range"), (L "N_freq"), (L "freq_distribution") by (cbn; intuition discriminate).
  rewrite H0. cbn [bind]. rewrite H1. cbn [bind]. rewrite Hn. cbn [bind]. rewrite Hd. cbn [bind].
  unfold get_frequency_points. rewrite Ht. cbn [bind fst snd]. rewrite (set_same _ _ _ Hf). eauto.
Qed.

Section loop.
Variables (argsort : list R -> list nat) (eig : eig_oracle) (nre nim noise : nat -> nat -> nat -> nat -> nat -> R)
  (odd : config -> option (grid4 R) -> list pyfloat -> list pyfloat -> outcome) (mats : option collection).
Context {O : Type}.
Variable adam : nat -> model -> O -> R -> model * O.
Notation ev := (evaluate argsort eig nre nim noise odd mats).

Lemma evaluate_config c it m : (forall e, fst (ev c it m) <> Raised e) -> snd (ev c it m) = config_left c.
Proof.
  unfold evaluate. destruct (grid_of_run _ _ _ _) as [[[g ids]|]|e]; cbn [fst snd]; try (intros H; exfalso; eapply H; reflexivity).
  destruct (compute_spectrum argsort eig (eps4_of g) c false) as [[|r t c'|r t]|e] eqn:E; cbn [fst snd].
  - intros H; exfalso; eapply H; reflexivity.
  - intros _. unfold compute_spectrum in E. cbn [bind] in E. unfold config_left. destruct (solver_is c "FDTD").
    + destruct (has_nan _); [discriminate|]. apply bind_ok in E as (x & Ex & E). injection E as _ _ <-.
      unfold compute_spectrum_fdtd in Ex. apply bind_ok in Ex as (p & -> & Ex). apply bind_ok in Ex as (f & _ & Ex).
      apply bind_ok in Ex as (tr & _ & Ex). injection Ex as <-. reflexivity.
    + destruct (solver_is c "TRCWA"); [|discriminate]. destruct (has_nan _); [discriminate|].
      apply bind_ok in E as (u & _ & E). apply bind_ok in E as (x & _ & E). discriminate.
  - intros _. unfold compute_spectrum in E. cbn [bind] in E. unfold config_left. destruct (solver_is c "FDTD"); [|reflexivity].
    destruct (has_nan _); [discriminate|]. apply bind_ok in E as (x & _ & E). discriminate.
  - destruct e; cbn [fst snd]; try (intros H; exfalso; eapply H; reflexivity). reflexivity.
Qed.

(** The changes made by the solver do not change later evaluations. *)
Definition settled (c : config) : Prop :=
  config_left (config_left c) = config_left c /\ forall it m, fst (ev (config_left c) it m) = fst (ev c it m).

Lemma settled_start c wls T : frequency_points c = Ok (c, wls) -> get_reals c "PER_LAYER_THICKNESS" = Ok T -> (forall x, In x T -> 0 < x) -> settled c.
Proof.
  intros F HT PT. unfold settled. destruct (solver_is c "FDTD") eqn:S0.
  2: { assert (E : config_left c = c) by (unfold config_left; rewrite S0; reflexivity). rewrite !E. split; reflexivity. }
  destruct (prepare_fdtd c) as [[c' w']|e] eqn:P.
  2: { assert (E : config_left c = c) by (unfold config_left; rewrite S0, P; reflexivity). rewrite !E. split; reflexivity. }
  assert (w' = wls).
  { unfold prepare_fdtd in P. rewrite F in P. cbn [bind fst snd] in P. apply bind_ok in P as (c2 & _ & P). apply bind_ok in P as (s & _ & P). congruence. }
  subst w'. destruct (config_left_left c c' wls S0 P) as [E1 E2]. rewrite E2. split; [exact E1|]. intros it m. unfold evaluate.
  rewrite (grid_left c c' wls T P F HT PT). destruct (grid_of_run _ _ _ _) as [[[g ids]|]|e]; [|reflexivity|reflexivity].
  rewrite (spectrum_left c c' wls S0 P).
  destruct (compute_spectrum argsort eig (eps4_of g) c false) as [[|r t c2|r t]|e] eqn:E; [reflexivity|reflexivity| |].
  - exfalso. unfold compute_spectrum in E. rewrite S0 in E. cbn [bind] in E. destruct (has_nan _); [discriminate|].
    apply bind_ok in E as (x & _ & E). discriminate.
  - destruct e; reflexivity.
Qed.

Lemma iteration_ext (e1 e2 : nat -> model -> outcome) it (s : tstate model O) :
  e1 it (s_weights s) = e2 it (s_weights s) -> iteration e1 adam it s = iteration e2 adam it s.
Proof. intros E. unfold iteration. rewrite E. reflexivity. Qed.

Lemma run_loop c s : settled c -> forall n,
  run_iterations argsort eig nre nim noise odd mats adam n (c, s)
  = match iterations (fun it m => fst (ev c it m)) adam n s with
    | Ok s' => Ok (match n with 0%nat => c | _ => config_left c end, s')
    | Err e => Err e
    end.
Proof.
  intros [S1 S2]. induction n as [|n IH]; [reflexivity|]. cbn [run_iterations iterations]. rewrite IH.
  destruct (iterations _ adam n s) as [s'|e]; [|reflexivity]. cbn [bind].
  set (c1 := match n with 0%nat => c | _ => config_left c end).
  assert (K : fst (ev c1 n (s_weights s')) = fst (ev c n (s_weights s'))) by (unfold c1; destruct n; [reflexivity|apply S2]).
  assert (L : config_left c1 = config_left c) by (unfold c1; destruct n; [reflexivity|exact S1]).
  unfold run_iteration. cbn [fst snd]. pose proof (evaluate_config c1 n (s_weights s')) as EC.
  destruct (ev c1 n (s_weights s')) as [o c2] eqn:Eo. cbn [fst snd] in *.
  rewrite (iteration_ext (fun _ _ => o) (fun it m => fst (ev c it m))) by (cbn; exact K).
  destruct (iteration (fun it m => fst (ev c it m)) adam n s') as [s''|e] eqn:Ei; [|reflexivity]. cbn [bind].
  rewrite EC; [rewrite L; reflexivity|]. intros e ->. unfold iteration in Ei. rewrite <- K in Ei. discriminate.
Qed.
End loop.

(** * The whole run *)
Lemma thickness_kept d files r r' T : init_training d files r = Ok r' ->
  get_reals (r_cfg r) "PER_LAYER_THICKNESS" = Ok T -> get_reals (r_cfg r') "PER_LAYER_THICKNESS" = Ok T.
Proof.
  intros E. destruct (start_user _ _ _ _ E) as [_ L]. unfold get_reals, getitem.
  rewrite (L "PER_LAYER_THICKNESS") by (cbn; intuition discriminate). auto.
Qed.

Section whole.
Variables (argsort : list R -> list nat) (eig : eig_oracle) (nre nim noise : nat -> nat -> nat -> nat -> nat -> R)
  (odd : config -> option (grid4 R) -> list pyfloat -> list pyfloat -> outcome).
Context {O : Type}.
Variables (adam : nat -> model -> O -> R -> model * O) (o0 : O) (d : draws) (files : list mfile) (r : run).
Notation ev := (evaluate argsort eig nre nim noise odd).
Notation tr := (train argsort eig nre nim noise odd adam o0 d files r).

Lemma train_settled r' T : init_training d files r = Ok r' -> get_reals (r_cfg r) "PER_LAYER_THICKNESS" = Ok T ->
  (forall x, In x T -> 0 < x) -> settled argsort eig nre nim noise odd (r_materials r') (r_cfg r').
Proof.
  intros E HT PT. destruct (start_points _ _ _ _ E) as [wls F].
  apply (settled_start _ _ _ _ _ _ _ _ wls T F); [exact (thickness_kept _ _ _ _ _ E HT)|exact PT].
Qed.

Lemma train_loop r' m lr n T : init_training d files r = Ok r' -> r_model r' = Some m ->
  get_real (r_cfg r') "learning_rate" = Ok lr -> 0 <= lr -> get_int (r_cfg r') "iterations" = Ok n ->
  get_reals (r_cfg r) "PER_LAYER_THICKNESS" = Ok T -> (forall x, In x T -> 0 < x) ->
  tr = match run_training (fun it w => fst (ev (r_materials r') (r_cfg r') it w)) adam (Z.to_nat n) m o0 lr with
       | Ok (w, logs) => Ok (mkRun (if (0 <? n)%Z then config_left (r_cfg r') else r_cfg r') (Some w) (r_materials r'), logs)
       | Err e => Err e
       end.
Proof.
  intros E Em El Pl En HT PT. unfold train. rewrite E. cbn [bind]. rewrite El. cbn [bind].
  unfold Rltb. destruct (Rlt_dec lr 0) as [X|_]; [lra|]. rewrite En. cbn [bind]. rewrite Em.
  rewrite (run_loop _ _ _ _ _ _ _ adam (r_cfg r') _ (train_settled r' T E HT PT)). unfold run_training.
  destruct (iterations _ adam (Z.to_nat n) (initial_state m o0 lr)) as [s|e]; [|reflexivity]. cbn [bind fst snd].
  destruct (Z.ltb_spec 0 n) as [Pn|Pn].
  - destruct (Z.to_nat n) eqn:Q; [lia|]. reflexivity.
  - replace (Z.to_nat n) with 0%nat by lia. reflexivity.
Qed.
End whole.
