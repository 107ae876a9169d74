(** A whole training run: nidn/training/run_training.py 71-198 ("run"), with the
    evaluation of the model, the solvers and the losses put in place of the
    oracle of Model_Training.v, and the config threaded through the iterations.

    Simplifications: the entries "results" and "best_model_state_dict" are not
    stored in the config (Model_Training.v keeps them in the state of the loop);
    the target spectra are lists of finite numbers; what happens in [backward] and
    in the step of the optimizer is an argument; so are the random numbers of the
    noise.  The losses of an FDTD spectrum with infinite or undefined coefficients
    are an argument too ([odd]): nothing is claimed of them. *)
From Coq Require Import Reals ZArith String List Bool.
From Verif Require Import Base Cplx PyVal Model_Config Model_Materials Model_EpsGrid Model_Losses Model_Layout Model_Networks
  Model_Start Model_Training Model_TRCWA Model_Modes Model_Dispatch.
Import ListNotations.
Open Scope R_scope.
Open Scope string_scope.

(** The grid as the tensor [compute_spectrum] gets; it holds no NaN. *)
Definition eps4_of (g : grid4 C) : eps4 :=
  mkEps4 (length g) (length (hd [] g)) (length (hd [] (hd [] g))) (length (hd [] (hd [] (hd [] g))))
    (fun x y l f => Some (nth f (nth l (nth y (nth x g []) []) []) C0)).

(** The numbers of a list without infinities and NaN. *)
Fixpoint fins (l : list pyfloat) : option (list R) :=
  match l with
  | [] => Some []
  | Fin x :: r => match fins r with Some xs => Some (x :: xs) | None => None end
  | _ => None
  end.

(** run 125-155: the loss, the L1 error and the flag; [ids] are the material
    weights of a classification. *)
Definition losses_of (c : config) (ids : option (grid4 R)) (pR pT : list R) : res outcome :=
  let! tR := get_reals c "target_reflectance_spectrum" in
  let! tT := get_reals c "target_transmittance_spectrum" in
  let! fs := get_reals c "target_frequencies" in
  let! L := get_real c "L" in
  let! ab := getitem c "absorption_loss" in
  let! s := spectrum_loss pR pT tR tT fs L (truthy ab) in
  let! l1 := spectrum_loss pR pT tR tT fs 1 false in
  let! ty := getitem c "type" in
  let! loss :=
    if py_eqb ty (VStr "classification") then
      let! u := getitem c "use_regularization_loss" in
      if truthy u then
        let! w := get_real c "reg_loss_weight" in
        match ids with
        | Some i => Ok (fst s + w * reg_loss (concat (concat i)) L)
        | None => Err TypeError
        end
      else Ok (fst s)
    else Ok (fst s) in
  Ok (Done (Fin loss) (Fin (fst l1)) (snd s)).

Definition outcome_of (r : res outcome) : outcome := match r with Ok o => o | Err e => Raised e end.

(** What a call of [compute_spectrum] that ends in ValueError leaves in the
    config: the FDTD solver has stored the frequencies, thicknesses and scaling
    before its loop. *)
Definition config_left (c : config) : config :=
  if solver_is c "FDTD" then match prepare_fdtd c with Ok p => fst p | Err _ => c end else c.

Section Run.
Variables (argsort : list R -> list nat) (eig : eig_oracle).
(** noise drawn in iteration [it] *)
Variables (nre nim noise : nat -> nat -> nat -> nat -> nat -> R).
Variable odd : config -> option (grid4 R) -> list pyfloat -> list pyfloat -> outcome.
Variable mats : option collection.

(** run 105-155: evaluating the model [m] in iteration [it]; the result and the
    config afterwards.  Unpacking None raises TypeError (106, 111).  The numbers
    TRCWA returns are real tensors. *)
Definition evaluate (c : config) (it : nat) (m : model) : outcome * config :=
  match grid_of_run (mkRun c (Some m) mats) (nre it) (nim it) (noise it) with
  | Err e => (Raised e, c)
  | Ok None => (Raised TypeError, c)
  | Ok (Some (g, ids)) =>
      match compute_spectrum argsort eig (eps4_of g) c false with
      | Err ValueError => (SpectrumValueError, config_left c)
      | Err e => (Raised e, c)
      | Ok NoSpectrum => (Raised TypeError, c)
      | Ok (TrcwaSpectrum r t) => (outcome_of (losses_of c ids (map Re r) (map Re t)), c)
      | Ok (FdtdSpectrum r t c') =>
          (match fins r, fins t with
           | Some r, Some t => outcome_of (losses_of c' ids r t)
           | _, _ => odd c' ids r t
           end, c')
      end
  end.

(** The state of Adam, and its step with the gradient of the loss (run 184-190). *)
Context {O : Type}.
Variable adam : nat -> model -> O -> R -> model * O.

(** run 102-193: one iteration, on the config and the state of the loop *)
Definition run_iteration (it : nat) (x : config * tstate model O) : res (config * tstate model O) :=
  let (o, c) := evaluate (fst x) it (s_weights (snd x)) in
  let! s := iteration (fun _ _ => o) adam it (snd x) in
  Ok (c, s).

Fixpoint run_iterations (n : nat) (x : config * tstate model O) : res (config * tstate model O) :=
  match n with
  | 0%nat => Ok x
  | S n' => let! y := run_iterations n' x in run_iteration n' y
  end.
End Run.

(** run 71-198 [run_training] on a config: the run afterwards and the logs
    (loss_log, weighted_average_log, L1_errs).  [range(n)] is empty for a negative
    number; Adam refuses a negative learning rate (run 61). *)
Definition train (argsort : list R -> list nat) (eig : eig_oracle)
    (nre nim noise : nat -> nat -> nat -> nat -> nat -> R)
    (odd : config -> option (grid4 R) -> list pyfloat -> list pyfloat -> outcome)
    {O : Type} (adam : nat -> model -> O -> R -> model * O) (o0 : O)
    (d : draws) (files : list mfile) (r : run) : res (run * (list pyfloat * list pyfloat * list pyfloat)) :=
  let! r := init_training d files r in
  let! lr := get_real (r_cfg r) "learning_rate" in
  if Rltb lr 0 then Err ValueError else
  let! n := get_int (r_cfg r) "iterations" in
  match r_model r with
  | None => Err AttributeError
  | Some m =>
      let! x := run_iterations argsort eig nre nim noise odd (r_materials r) adam (Z.to_nat n)
                  (r_cfg r, initial_state m o0 lr) in
      let s := snd x in
      Ok (mkRun (fst x) (Some (load_best s)) (r_materials r), (s_loss_log s, s_wavg_log s, s_l1_log s))
  end.
