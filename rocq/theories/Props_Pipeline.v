(** Property theorems C95: whole training runs ([run_training] on a config, with
    the model, the solvers and the losses in place).  [started], [kept_for] and
    [nonneg] are defined in Spec_Pipeline.v; [history], [record_at] and
    [renormalised_at] in Spec_Training.v; [settings], [holds] and [trainable] in
    Spec_Start.v; [fdtd_numbers] in Spec_Layout.v; [shape4] in Spec_EpsGrid.v;
    [sumL], [absorption] and [physical] in Spec_Losses.v. *)
From Coq Require Import Reals ZArith String List Bool Lra Lia.
From Verif Require Import Base Cplx PyVal Model_Config Spec_Config Proof_Config Model_EpsGrid Spec_EpsGrid Spec_Losses Model_Layout Spec_Layout Model_Networks Model_Start Spec_Start
  Model_Training Spec_Training Model_TRCWA Model_Modes Model_Dispatch Spec_Dispatch Model_Pipeline Spec_Pipeline
  Proof_Vacuum Proof_Start2 Proof_Pipeline4 Proof_Pipeline5 Proof_Pipeline6 Proof_Pipeline7 Proof_Pipeline8 Props_Start.
Import ListNotations.
Open Scope R_scope.
Open Scope string_scope.

(** A run is the loop of C21-C23 on the evaluation of the config as it was
    started: what a solver stores on the way changes nothing the next iterations
    see; afterwards the config differs in two entries at most, and only with FDTD. *)
Theorem C95_composition : forall argsort eig nre nim noise odd (O : Type) (adam : nat -> model -> O -> R -> model * O) o0 d files r r' m lr n,
  started d files r r' m lr n ->
  (forall w logs, run_training (fun it x => fst (evaluate argsort eig nre nim noise odd (r_materials r') (r_cfg r') it x)) adam (Z.to_nat n) m o0 lr = Ok (w, logs) ->
     exists c2, train argsort eig nre nim noise odd adam o0 d files r = Ok (mkRun c2 (Some w) (r_materials r'), logs)
       /\ (forall k, k <> "PER_LAYER_THICKNESS" -> k <> "FDTD_grid_scaling" -> lookup c2 k = lookup (r_cfg r') k)
       /\ (~ entry (r_cfg r) "solver" (VStr "FDTD") -> c2 = r_cfg r'))
  /\ (forall e, run_training (fun it x => fst (evaluate argsort eig nre nim noise odd (r_materials r') (r_cfg r') it x)) adam (Z.to_nat n) m o0 lr = Err e ->
     train argsort eig nre nim noise odd adam o0 d files r = Err e).
Proof. exact (fun argsort eig nre nim noise odd O adam o0 d files r r' m lr n => composition argsort eig nre nim noise odd adam o0 d files r r' m lr n). Qed.
Print Assumptions C95_composition.

(** Without noise: after an iteration without a spectrum the run goes on from the
    weights kept before; if none were kept, it never recovers. *)
Theorem C95_failures : forall argsort eig nre nim noise odd (O : Type) (adam : nat -> model -> O -> R -> model * O) o0 d files r r' m lr n,
  started d files r r' m lr n -> entry (r_cfg r) "add_noise" (VBool false) ->
  forall r2 logs, train argsort eig nre nim noise odd adam o0 d files r = Ok (r2, logs) ->
  exists ws out lrs, history (fun it x => fst (evaluate argsort eig nre nim noise odd (r_materials r') (r_cfg r') it x)) adam m lr (Z.to_nat n) ws out lrs /\
    forall k, (k < Z.to_nat n)%nat -> out k = SpectrumValueError ->
      (forall j, kept_for out k j -> ws (S k) = ws j /\ (S k < Z.to_nat n -> out (S k) = out j)%nat)
      /\ ((forall j, ~ kept_for out k j) -> r_model r2 = Some (ws k)
            /\ forall j, (k <= j < Z.to_nat n)%nat -> out j = SpectrumValueError /\ ws j = ws k).
Proof. exact (fun argsort eig nre nim noise odd O adam o0 d files r r' m lr n => run_failures argsort eig nre nim noise odd adam o0 d files r r' m lr n). Qed.
Print Assumptions C95_failures.

(** Without noise and renormalisation the returned model has the smallest loss of
    the log, and evaluating it on the returned config gives that loss again. *)
Theorem C95_best : forall argsort eig nre nim noise odd (O : Type) (adam : nat -> model -> O -> R -> model * O) o0 d files r r' m lr n,
  started d files r r' m lr n -> entry (r_cfg r) "add_noise" (VBool false) ->
  forall r2 ll wl l1s, train argsort eig nre nim noise odd adam o0 d files r = Ok (r2, (ll, wl, l1s)) ->
  exists ws out lrs, history (fun it x => fst (evaluate argsort eig nre nim noise odd (r_materials r') (r_cfg r') it x)) adam m lr (Z.to_nat n) ws out lrs /\
    ((forall k, (k < Z.to_nat n)%nat -> ~ renormalised_at out k) -> (exists l, In l ll /\ flt l PInf = true) ->
     exists m2 l l1, r_model r2 = Some m2 /\ In l ll /\ (forall l', In l' ll -> flt l' l = false)
       /\ forall it, fst (evaluate argsort eig nre nim noise odd (r_materials r2) (r_cfg r2) it m2) = Done l l1 false).
Proof. exact (fun argsort eig nre nim noise odd O adam o0 d files r r' m lr n => best_again argsort eig nre nim noise odd adam o0 d files r r' m lr n). Qed.
Print Assumptions C95_best.

(** The returned run can be trained again: starting it changes nothing (not even
    after FDTD has stored its entries), and keeps the returned model, whatever the
    random numbers. *)
Theorem C95_continue : forall argsort eig nre nim noise odd (O : Type) (adam : nat -> model -> O -> R -> model * O) o0 d files r r' m lr n,
  started d files r r' m lr n ->
  forall r2 logs d', train argsort eig nre nim noise odd adam o0 d files r = Ok (r2, logs) ->
  exists m2, r_model r2 = Some m2 /\ started d' files r2 r2 m2 lr n.
Proof. exact (fun argsort eig nre nim noise odd O adam o0 d files r r' m lr n => continues argsort eig nre nim noise odd adam o0 d files r r' m lr n). Qed.
Print Assumptions C95_continue.

(** ... and then the first loss of the new log is the smallest of the old one. *)
Theorem C95_resume : forall argsort eig nre nim noise odd (O : Type) (adam : nat -> model -> O -> R -> model * O) o0 d files r r' m lr n,
  started d files r r' m lr n -> entry (r_cfg r) "add_noise" (VBool false) ->
  forall r2 ll wl l1s, train argsort eig nre nim noise odd adam o0 d files r = Ok (r2, (ll, wl, l1s)) ->
  exists ws out lrs, history (fun it x => fst (evaluate argsort eig nre nim noise odd (r_materials r') (r_cfg r') it x)) adam m lr (Z.to_nat n) ws out lrs /\
    ((forall k, (k < Z.to_nat n)%nat -> ~ renormalised_at out k) -> (exists l, In l ll /\ flt l PInf = true) ->
     exists l, In l ll /\ (forall l', In l' ll -> flt l' l = false)
       /\ forall d' r3 ll' wl' l1s', train argsort eig nre nim noise odd adam o0 d' files r2 = Ok (r3, (ll', wl', l1s')) -> exists rest, ll' = l :: rest).
Proof. exact (fun argsort eig nre nim noise odd O adam o0 d files r r' m lr n => resume argsort eig nre nim noise odd adam o0 d files r r' m lr n). Qed.
Print Assumptions C95_resume.

(** With FDTD and a range of negative real permittivities no iteration gives a
    spectrum: the run ends normally, with empty logs and the model it began with. *)
Theorem C95_negative_range : forall argsort eig nre nim noise odd (O : Type) (adam : nat -> model -> O -> R -> model * O) o0 d files c w s lr n T w0 w1 p sx sy,
  validate_config c = Ok w -> holds c s -> t_type s = "regression" -> trainable s \/ t_model s = "voxel" ->
  fdtd_numbers c T w0 w1 p sx sy -> entry c "solver" (VStr "FDTD") -> t_rmax s < 0 ->
  entry_num c "learning_rate" lr -> entry c "iterations" (VInt n) ->
  exists r' m c2, init_training d files (mkRun c None None) = Ok r' /\ r_model r' = Some m
    /\ train argsort eig nre nim noise odd adam o0 d files (mkRun c None None) = Ok (mkRun c2 (Some m) (r_materials r'), ([], [], [])).
Proof. exact (fun argsort eig nre nim noise odd O adam o0 d files c w s lr n T w0 w1 p sx sy => negative_run argsort eig nre nim noise odd adam o0 d files c w s lr n T w0 w1 p sx sy). Qed.
Print Assumptions C95_negative_range.

(** A solver that is neither passes validation and ends the run with a TypeError. *)
Theorem C95_unknown_solver : forall argsort eig nre nim noise odd (O : Type) (adam : nat -> model -> O -> R -> model * O) o0 d files c w s lr n,
  validate_config c = Ok w -> holds c s -> t_type s = "regression" ->
  trainable s \/ t_model s = "voxel" /\ (forall x, In x (t_thickness s) -> 0 < x) ->
  ~ entry c "solver" (VStr "FDTD") -> ~ entry c "solver" (VStr "TRCWA") ->
  entry_num c "learning_rate" lr -> entry c "iterations" (VInt n) ->
  train argsort eig nre nim noise odd adam o0 d files (mkRun c None None) = Err TypeError.
Proof. exact (fun argsort eig nre nim noise odd O adam o0 d files c w s lr n => unknown_run argsort eig nre nim noise odd adam o0 d files c w s lr n). Qed.
Print Assumptions C95_unknown_solver.

(** With TRCWA everything in the logs is a finite number that is not negative. *)
Theorem C95_trcwa_logs : forall argsort eig nre nim noise odd (O : Type) (adam : nat -> model -> O -> R -> model * O) o0 d files r r' m lr n,
  started d files r r' m lr n ->
  forall r2 ll wl l1, entry (r_cfg r) "solver" (VStr "TRCWA") ->
  train argsort eig nre nim noise odd adam o0 d files r = Ok (r2, (ll, wl, l1)) ->
  forall f, In f ll \/ In f wl \/ In f l1 -> nonneg f.
Proof. exact (fun argsort eig nre nim noise odd O adam o0 d files r r' m lr n => trcwa_logs argsort eig nre nim noise odd adam o0 d files r r' m lr n). Qed.
Print Assumptions C95_trcwa_logs.

(** The solver gets the grid of the model, entry by entry: first x, then y, then the
    layer, then the frequency. *)
Theorem C95_grid : forall (g : grid4 C) nx ny nl nf, shape4 g nx ny nl nf -> (0 < nx)%nat -> (0 < ny)%nat -> (0 < nl)%nat ->
  e_nx (eps4_of g) = nx /\ e_ny (eps4_of g) = ny /\ e_nl (eps4_of g) = nl /\ e_nf (eps4_of g) = nf
  /\ forall x y l k p q u z, nth_error g x = Some p -> nth_error p y = Some q -> nth_error q l = Some u -> nth_error u k = Some z ->
       e_at (eps4_of g) x y l k = Some z.
Proof. exact tensor. Qed.
Print Assumptions C95_grid.

(** The loss of an iteration is the mean distance of the solver's reflectances from
    the target reflectances and of its transmittances from the target
    transmittances (and of the absorptions, if asked for) plus the regularisation;
    the L1 error is the mean absolute distance, without absorption. *)
Theorem C95_loss : forall argsort eig nre nim noise odd d files r r' m lr n,
  started d files r r' m lr n -> forall tR tT fs L a w g ids it rs ts x,
  entry_nums (r_cfg r) "target_reflectance_spectrum" tR -> entry_nums (r_cfg r) "target_transmittance_spectrum" tT ->
  entry_nums (r_cfg r') "target_frequencies" fs -> entry_num (r_cfg r) "L" L -> entry (r_cfg r) "absorption_loss" (VBool a) ->
  grid_of_run (mkRun (r_cfg r') (Some w) (r_materials r')) (nre it) (nim it) (noise it) = Ok (Some (g, ids)) ->
  spectrum_is (compute_spectrum argsort eig (eps4_of g) (r_cfg r') false) rs ts -> regularisation (r_cfg r) ids L x ->
  rs <> [] -> length ts = length rs -> length tR = length rs -> length tT = length rs -> length fs = length rs -> physical rs ts ->
  fst (evaluate argsort eig nre nim noise odd (r_materials r') (r_cfg r') it w)
  = Done (Fin (mean_loss L a rs ts tR tT + x)) (Fin (mean_loss 1 false rs ts tR tT)) false.
Proof. exact (fun argsort eig nre nim noise odd d files r r' m lr n => evaluation_loss argsort eig nre nim noise odd d files r r' m lr n). Qed.
Print Assumptions C95_loss.

(** The default config can be started; it uses TRCWA and no noise. *)
Example C95_default d : exists r' m, started d three_files (mkRun default_config None None) r' m (8 / 100000) 3000
  /\ entry default_config "add_noise" (VBool false) /\ entry default_config "solver" (VStr "TRCWA").
Proof.
  destruct C63_default as [H [T _]].
  destruct (C63_starts d three_files _ _ _ default_accepted H T (or_introl eq_refl)) as [r1 E].
  pose proof (C63_model _ _ _ _ E) as M. cbn [r_model] in M. destruct M as (nc & m & _ & _ & M).
  exists r1, m. split; [|split; reflexivity]. split; cbn [r_cfg]; auto.
  - eexists. split; reflexivity.
  - reflexivity.
  - exists [1]. split; [eexists; split; [reflexivity|]; repeat constructor|]. intros x [<-|[]]. lra.
Qed.

(** Its targets; a solver that reflects and transmits nothing is as far from them
    as the ten reflectances of 1 are. *)
Example C95_default_targets :
  entry_nums default_config "target_reflectance_spectrum" (repeat 0 10 ++ repeat 1 10) /\ entry_nums default_config "target_transmittance_spectrum" (repeat 0 20)
  /\ entry_num default_config "L" 1 /\ entry default_config "absorption_loss" (VBool false) /\ regularisation default_config None 1 0
  /\ physical (repeat 0 20) (repeat 0 20) /\ mean_loss 1 false (repeat 0 20) (repeat 0 20) (repeat 0 10 ++ repeat 1 10) (repeat 0 20) = 1 / 4.
Proof.
  split; [eexists; split; [reflexivity|cbn; repeat constructor]|]. split; [eexists; split; [reflexivity|cbn; repeat constructor]|].
  split; [eexists; split; reflexivity|]. split; [reflexivity|]. split; [left; split; reflexivity|]. split.
  - intros p H. cbn in H. repeat (destruct H as [<-|H]; [cbn; lra|]). contradiction.
  - assert (A0 : absL 1 0 0 = 0) by (unfold absL; destruct (Req_EM_T 0 0); [reflexivity|congruence]).
    assert (A1 : absL 1 0 1 = 1).
    { unfold absL. destruct (Req_EM_T 0 1) as [E|_]; [lra|]. rewrite (Rabs_left (0 - 1)) by lra. replace (- (0 - 1)) with 1 by ring.
      unfold Rpower. rewrite ln_1, Rmult_0_r. exact exp_0. }
    unfold mean_loss, sumL. cbn [repeat app combine map fst snd length].
    cbn. rewrite ?A0, ?A1. lra.
Qed.

(** A metal for FDTD: real parts between -100 and -1. *)
Definition metal_config : config := replace (replace default_config "solver" (VStr "FDTD")) "real_max_eps" (fl (-1)).
Definition metal_settings : settings :=
  mkSettings "regression" "siren" 4 100 9 1 1 1 1 8 20 (1 / 1000000) (30 / 1000000) "linear" [1] (-100) (-1) 0 3 (1 / 1000).
Example C95_metal_valid : exists w, validate_config metal_config = Ok w.
Proof.
  apply validate_complete_fdtd.
  - split; [|split; [|split]].
    + apply replace_complete, replace_complete, default_complete.
    + apply replace_known, replace_known, default_known.
    + apply replace_typed with KFloat; [apply replace_typed with KStr; [exact default_typed|apply in_kinds; reflexivity|cbn; eauto]|apply in_kinds; reflexivity|cbn; unfold fl; eauto].
    + destruct default_ranges as [R1 R2 R3 R4 R5 R6 R7 R8 R9 R10 R11 R12 R13 R14]. constructor.
      * exists (Fin (-100)), (Fin (-1)). split; [reflexivity|]. split; [reflexivity|]. left. constructor. lra.
      * exact R2.
      * exact R3.
      * intros k Hk. pose proof (R4 k Hk) as X. cbn in Hk. repeat (destruct Hk as [<-|Hk]; [exact X|]). contradiction.
      * exact R5.
      * exact R6.
      * exact R7.
      * exact R8.
      * intros k Hk. pose proof (R9 k Hk) as X. cbn in Hk. repeat (destruct Hk as [<-|Hk]; [exact X|]). contradiction.
      * exact R10.
      * exact R11.
      * exact R12.
      * exact R13.
      * exact R14.
  - exists (3 / 2). reflexivity.
  - intros l t Hl Ht. unfold entry in Hl. cbn in Hl. injection Hl as <-. destruct Ht as [<-|[]]. eexists. reflexivity.
Qed.
Example C95_metal : holds metal_config metal_settings /\ trainable metal_settings /\ t_rmax metal_settings < 0
  /\ fdtd_numbers metal_config [1] (1/1000000) (30/1000000) (3/2) (3/2) 1 /\ entry metal_config "solver" (VStr "FDTD")
  /\ entry_num metal_config "learning_rate" (8 / 100000) /\ entry metal_config "iterations" (VInt 3000).
Proof.
  split; [|split; [|split; [cbn; lra|split; [|split; [reflexivity|split; [eexists; split; reflexivity|reflexivity]]]]]].
  - split; try reflexivity; try (eexists; split; reflexivity).
    + do 3 eexists. split; [reflexivity|]. split; reflexivity.
    + eexists. split; [reflexivity|]. repeat constructor.
  - split; [reflexivity|]. split; [intros x [<-|[]]; lra|]. left. split; [reflexivity|cbn; lra].
  - destruct default_numbers as [A B C D]. constructor; [exact A|exact B|exact C|exact D].
Qed.
(** The default config with a solver that does not exist. *)
Definition meep_config : config := replace default_config "solver" (VStr "MEEP").
Example C95_meep : validate_config meep_config = Ok [] /\ holds meep_config default_settings
  /\ ~ entry meep_config "solver" (VStr "FDTD") /\ ~ entry meep_config "solver" (VStr "TRCWA").
Proof.
  split; [|split; [|split; discriminate]].
  - apply validate_complete; [|discriminate]. split; [|split; [|split]].
    + apply replace_complete, default_complete.
    + apply replace_known, default_known.
    + apply replace_typed with KStr; [exact default_typed|apply in_kinds; reflexivity|cbn; eauto].
    + destruct default_ranges as [R1 R2 R3 R4 R5 R6 R7 R8 R9 R10 R11 R12 R13 R14]. constructor.
      * exact R1.
      * exact R2.
      * exact R3.
      * intros k Hk. pose proof (R4 k Hk) as X. cbn in Hk. repeat (destruct Hk as [<-|Hk]; [exact X|]). contradiction.
      * exact R5.
      * exact R6.
      * exact R7.
      * exact R8.
      * intros k Hk. pose proof (R9 k Hk) as X. cbn in Hk. repeat (destruct Hk as [<-|Hk]; [exact X|]). contradiction.
      * exact R10.
      * exact R11.
      * exact R12.
      * exact R13.
      * exact R14.
  - split; try reflexivity; try (eexists; split; reflexivity).
    + do 3 eexists. split; [reflexivity|]. split; reflexivity.
    + eexists. split; [reflexivity|]. repeat constructor.
Qed.
