(** Vocabulary for C95: whole training runs. *)
From Coq Require Import Reals ZArith String List.
From Verif Require Import Base Cplx PyVal Spec_Config Model_EpsGrid Model_Losses Spec_Losses Model_Dispatch Spec_Dispatch Model_Networks Model_Start Model_Training Spec_Training.
Import ListNotations.
Open Scope R_scope.
Local Open Scope string_scope.

(** A run [r] that can be started: [r'] is the run after the start, with model
    [m]; it is given a number of iterations, a learning rate and positive
    thicknesses. *)
Record started (d : draws) files (r r' : run) (m : model) (lr : R) (n : Z) : Prop := {
  st_init : init_training d files r = Ok r';
  st_model : r_model r' = Some m;
  st_lr : entry_num (r_cfg r) "learning_rate" lr;
  st_iterations : entry (r_cfg r) "iterations" (VInt n);
  st_thickness : exists T, entry_nums (r_cfg r) "PER_LAYER_THICKNESS" T /\ forall x, In x T -> 0 < x }.

(** Iteration [j] is the one whose weights are kept for a reload in iteration [k]:
    the last record before [k] that needed no renormalisation. *)
Definition kept_for (out : nat -> outcome) (k j : nat) : Prop :=
  (j < k)%nat /\ (exists l, record_at out j l) /\ ~ renormalised_at out j
  /\ forall i l, (j < i < k)%nat -> record_at out i l -> renormalised_at out i.

(** A finite number that is not negative. *)
Definition nonneg (f : pyfloat) : Prop := exists x, f = Fin x /\ 0 <= x.

(** The reflectances and transmittances a solver has returned, as real numbers. *)
Definition spectrum_is (s : res spectrum) (rs ts : list R) : Prop :=
  (exists cr ct, s = Ok (TrcwaSpectrum cr ct) /\ rs = map Re cr /\ ts = map Re ct)
  \/ exists c', s = Ok (FdtdSpectrum (map Fin rs) (map Fin ts) c').

(** The mean L-distance from the target spectra, with or without absorption. *)
Definition mean_loss (L : R) (a : bool) (rs ts tR tT : list R) : R :=
  (sumL L rs tR + sumL L ts tT + (if a then sumL L (absorption rs ts) (absorption tR tT) else 0))
  / ((if a then 3 else 2) * INR (length rs)).

(** What is added to the loss for material weights [ids]. *)
Definition regularisation (c : config) (ids : option (grid4 R)) (L x : R) : Prop :=
  entry c "type" (VStr "regression") /\ x = 0
  \/ entry c "type" (VStr "classification") /\ entry c "use_regularization_loss" (VBool false) /\ x = 0
  \/ entry c "type" (VStr "classification") /\ entry c "use_regularization_loss" (VBool true)
     /\ exists w i, entry_num c "reg_loss_weight" w /\ ids = Some i /\ x = w * reg_loss (concat (concat i)) L.
