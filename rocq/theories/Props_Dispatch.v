(** Property theorems C53: TRCWA spectra frequency by frequency, and the choice of
    the solver.  [one_frequency], [no_nan], [lists_of], [shapes_match], [same_slice] and
    [describes] are defined in Spec_Dispatch.v. *)
From Coq Require Import Reals ZArith String List Lra Lia.
From mathcomp Require Import all_ssreflect all_algebra.
From Verif Require Import Base PyVal Cplx Model_Config Spec_Config Proof_Config Model_Layout Model_Lattice Spec_Lattice
  Model_Modes Model_TRCWA Model_Dispatch Spec_Dispatch Proof_Dispatch Proof_Dispatch2.
Delimit Scope R_scope with coqR.
Delimit Scope Z_scope with coqZ.
Local Open Scope string_scope.

(** A NaN anywhere in the tensor: ValueError, whatever the config. *)
Theorem C53_nan : forall argsort eig e u,
  ~ no_nan e -> compute_spectrum_trcwa argsort eig e u = Err ValueError.
Proof. exact spectrum_nan. Qed.
Print Assumptions C53_nan.
(** No frequencies, a wrong number of them, or a wrong shape: AssertionError. *)
Theorem C53_shapes : forall argsort eig e u,
  no_nan e -> ~ (exists fs, shapes_match e u fs) ->
  compute_spectrum_trcwa argsort eig e u = Err AssertionError.
Proof. exact spectrum_shapes. Qed.
Print Assumptions C53_shapes.
(** Otherwise the lists are exactly those with one entry per frequency, computed
    from the slice of that frequency. *)
Theorem C53_entries : forall argsort eig e u fs rs ts,
  no_nan e -> shapes_match e u fs ->
  (compute_spectrum_trcwa argsort eig e u = Ok (rs, ts) <->
   size rs = size fs /\ size ts = size fs
   /\ forall i f, List.nth_error fs i = Some f ->
        exists r t, List.nth_error rs i = Some r /\ List.nth_error ts i = Some t
          /\ one_frequency argsort eig e u i f (Ok (r, t))).
Proof. exact spectrum_ok. Qed.
Print Assumptions C53_entries.
(** An exception is that of the first frequency that fails. *)
Theorem C53_first_error : forall argsort eig e u fs er,
  no_nan e -> shapes_match e u fs ->
  compute_spectrum_trcwa argsort eig e u = Err er ->
  exists i f, List.nth_error fs i = Some f /\ one_frequency argsort eig e u i f (Err er)
    /\ forall j g, (j < i)%N -> List.nth_error fs j = Some g -> exists rt, one_frequency argsort eig e u j g (Ok rt).
Proof. exact spectrum_err. Qed.
Print Assumptions C53_first_error.
(** Only the permittivities of the slice count: two runs, of any lengths, that
    share a frequency and a slice (at any positions) agree there. *)
Theorem C53_local : forall argsort eig e u fs rs ts e' u' fs' rs' ts' i j f,
  no_nan e -> shapes_match e u fs -> no_nan e' -> shapes_match e' u' fs' -> u_cfg u = u_cfg u' ->
  same_slice e i e' j -> List.nth_error fs i = Some f -> List.nth_error fs' j = Some f ->
  compute_spectrum_trcwa argsort eig e u = Ok (rs, ts) ->
  compute_spectrum_trcwa argsort eig e' u' = Ok (rs', ts') ->
  List.nth_error rs i = List.nth_error rs' j /\ List.nth_error ts i = List.nth_error ts' j.
Proof. exact spectrum_local. Qed.
Print Assumptions C53_local.
(** compute_spectrum: an invalid config is reported first ... *)
Theorem C53_invalid : forall argsort eig e c er,
  validate_config c = Err er ->
  compute_spectrum argsort eig e c true = Err er.
Proof. exact dispatch_invalid. Qed.
Print Assumptions C53_invalid.
(** ... a valid one is treated alike with and without validation. *)
Theorem C53_valid : forall argsort eig e c w,
  validate_config c = Ok w ->
  compute_spectrum argsort eig e c true = compute_spectrum argsort eig e c false.
Proof. exact dispatch_valid. Qed.
Print Assumptions C53_valid.
(** None is returned exactly for unknown solver names. *)
Theorem C53_none : forall argsort eig e c,
  compute_spectrum argsort eig e c false = Ok NoSpectrum <->
  ~ entry c "solver" (VStr "FDTD") /\ ~ entry c "solver" (VStr "TRCWA").
Proof. exact dispatch_none. Qed.
Print Assumptions C53_none.
(** The validator does not check the name. *)
Theorem C53_unknown : forall argsort eig e c w s,
  validate_config c = Ok w -> s <> "FDTD" -> s <> "TRCWA" ->
  compute_spectrum argsort eig e (replace c "solver" (VStr s)) true = Ok NoSpectrum.
Proof. exact unknown_solver. Qed.
Print Assumptions C53_unknown.
Theorem C53_fdtd : forall argsort eig e c slices,
  entry c "solver" (VStr "FDTD") -> length slices = e_nf e ->
  (forall k, (k < e_nf e)%N -> lists_of e k (List.nth k slices nil)) -> no_nan e ->
  compute_spectrum argsort eig e c false =
  match compute_spectrum_fdtd slices c with
  | Ok (r, t, c') => Ok (FdtdSpectrum r t c') | Err er => Err er end.
Proof. exact dispatch_fdtd_lists. Qed.
Print Assumptions C53_fdtd.
Theorem C53_trcwa : forall argsort eig e c w u,
  validate_config c = Ok w ->
  entry c "solver" (VStr "TRCWA") -> describes c u ->
  compute_spectrum argsort eig e c true =
  match compute_spectrum_trcwa argsort eig e u with
  | Ok (r, t) => Ok (TrcwaSpectrum r t) | Err er => Err er end.
Proof. exact dispatch_trcwa. Qed.
Print Assumptions C53_trcwa.
(** A valid config for another solver than FDTD stays valid when the frequencies
    are computed, and then holds as many as it announces. *)
Theorem C53_frequencies : forall c w u c' wls,
  validate_config c = Ok w -> ~ entry c "solver" (VStr "FDTD") ->
  describes c u -> frequency_points c = Ok (c', wls) ->
  validate_config c' = Ok nil
  /\ (forall k x, k <> "target_frequencies" -> (entry c' k x <-> entry c k x))
  /\ exists fs, describes c' (mkTrun (u_Nx u) (u_Ny u) (u_Nl u) (u_Nf u) (Some fs) (u_cfg u))
       /\ Z.of_nat (List.length fs) = u_Nf u.
Proof. exact frequencies_ready. Qed.
Print Assumptions C53_frequencies.

(** The default config describes a run, ... *)
Definition default_run : trcwa_run :=
  mkTrun 1 1 8 20 None (mkTcfg (OInt 11) (LList [:: (1 / 10)%coqR; 0%coqR]) (LList [:: 0%coqR; (1 / 10)%coqR]) 1 1 [:: 1%coqR]).
Example C53_default_run : describes default_config default_run.
Proof.
  split; try by eexists; split; [reflexivity | reflexivity].
  - by move=> v.
  - exists 11%coqZ. split=> //. by exists (VInt 11).
  - do 5 eexists. split; first reflexivity. split; first by repeat constructor. split; first by repeat constructor. by split.
  - eexists. split; first reflexivity. by repeat constructor.
Qed.
(** ... for which no frequencies were computed: AssertionError for every tensor ... *)
Example C53_default_fails argsort eig e : no_nan e ->
  compute_spectrum argsort eig e default_config true = Err AssertionError.
Proof.
  move=> Hn. rewrite (C53_trcwa argsort eig e _ _ _ default_accepted _ C53_default_run) //.
  rewrite C53_shapes // => -[fs [E _]] //.
Qed.
(** ... and after they were computed it fits the 1x1x8x20 tensor of a glass. *)
Definition glass : eps4 := mkEps4 1 1 8 20 (fun _ _ _ _ => Some (2, 0)%coqR).
Example C53_glass : no_nan glass /\ exists c' wls fs,
  frequency_points default_config = Ok (c', wls) /\ validate_config c' = Ok nil
  /\ describes c' (mkTrun 1 1 8 20 (Some fs) (u_cfg default_run))
  /\ shapes_match glass (mkTrun 1 1 8 20 (Some fs) (u_cfg default_run)) fs.
Proof.
  split; first by move=> *; eexists.
  have [c' [wls E]] : exists c' wls, frequency_points default_config = Ok (c', wls) by do 2 eexists; reflexivity.
  have [H1 [_ [fs [H2 H3]]]] := C53_frequencies default_config _ _ c' wls default_accepted ltac:(by []) C53_default_run E.
  exists c', wls, fs. by split.
Qed.
