(** The training loop: nidn/training/run_training.py. *)
From Coq Require Import Reals ZArith String List Bool.
From Verif Require Import Base PyVal.
Import ListNotations.
Open Scope R_scope.

(** What one evaluation of the current weights yields.  Evaluating the network,
    the simulator and the losses (lines 105-155) is an oracle here:
    - [Raised e]: model_to_eps_grid raised (anything), or compute_spectrum raised
      something other than ValueError: run_training propagates it;
    - [SpectrumValueError]: compute_spectrum raised ValueError (line 114);
    - [Done loss l1 renormalized]: loss.item(), the L1 error and the flag. *)
Inductive outcome :=
| Raised (e : exn)
| SpectrumValueError
| Done (loss : pyfloat) (l1 : pyfloat) (renormalized : bool).

(** torch.optim.lr_scheduler.ReduceLROnPlateau as constructed on lines 64-66
    (factor 0.66, patience 500, min_lr 1e-6; torch's defaults mode=min,
    threshold 1e-4 relative, cooldown 0, eps 1e-8). *)
Record plateau := { pl_best : pyfloat; pl_bad : nat }.
Definition FACTOR : R := 66 / 100.
Definition PATIENCE : nat := 500.
Definition MIN_LR : R := / 1000000.
Definition LR_EPS : R := / 100000000.
Definition plateau_step (p : plateau) (lr : R) (metric : pyfloat) : plateau * R :=
  let better := flt metric (fmul (pl_best p) (Fin (1 - / 10000))) in
  let best := if better then metric else pl_best p in
  let bad := if better then 0%nat else S (pl_bad p) in
  if Nat.ltb PATIENCE bad then
    let new_lr := Rmax (lr * FACTOR) MIN_LR in
    ({| pl_best := best; pl_bad := 0 |}, if Rlt_dec LR_EPS (lr - new_lr) then new_lr else lr)
  else ({| pl_best := best; pl_bad := bad |}, lr).

(** [np.mean] of a non-empty list of floats *)
Definition fmean (l : list pyfloat) : pyfloat :=
  fmul (fold_left fadd l (Fin 0)) (Fin (/ INR (length l))).

(** [deque(maxlen=20).append] *)
Definition deque_append (l : list pyfloat) (x : pyfloat) : list pyfloat :=
  let l' := l ++ [x] in
  if Nat.ltb 20 (length l') then tl l' else l'.

Section Loop.
(** [W]: the network's weights; [O]: Adam's internal state. *)
Context {W O : Type}.

Record tstate := {
  s_weights : W;
  s_opt : O;
  s_lr : R;
  s_plateau : plateau;
  s_best_loss : pyfloat;
  (** line 98 stores [model.state_dict()] itself, whose tensors are the live
      parameters ([None]); line 165 stores a deep copy ([Some w]) *)
  s_best_state : option W;
  s_window : list pyfloat;
  s_loss_log : list pyfloat;
  s_wavg_log : list pyfloat;
  s_l1_log : list pyfloat }.

(** [model.load_state_dict(best_model_state_dict)]: loading the aliased state
    copies every parameter onto itself. *)
Definition load_best (s : tstate) : W :=
  match s_best_state s with None => s_weights s | Some w => w end.

(** The oracles: evaluation of weights at iteration [it] (noise may depend on
    [it]) and one Adam step (line 187-190). *)
Variable evaluate : nat -> W -> outcome.
Variable adam : nat -> W -> O -> R -> W * O.

(** Lines 102-193: one iteration. *)
Definition iteration (it : nat) (s : tstate) : res tstate :=
  match evaluate it (s_weights s) with
  | Raised e => Err e
  | SpectrumValueError =>
      Ok {| s_weights := load_best s; s_opt := s_opt s; s_lr := s_lr s * / 2;
            s_plateau := s_plateau s; s_best_loss := s_best_loss s; s_best_state := s_best_state s;
            s_window := s_window s; s_loss_log := s_loss_log s; s_wavg_log := s_wavg_log s;
            s_l1_log := s_l1_log s |}
  | Done loss l1 renormalized =>
      let better := flt loss (s_best_loss s) in
      let best_loss := if better then loss else s_best_loss s in
      let best_state := if better && negb renormalized
                        then Some (s_weights s) else s_best_state s in
      let window := deque_append (s_window s) loss in
      let '(w', o') := adam it (s_weights s) (s_opt s) (s_lr s) in
      let '(p', lr') := plateau_step (s_plateau s) (s_lr s) loss in
      Ok {| s_weights := w'; s_opt := o'; s_lr := lr'; s_plateau := p';
            s_best_loss := best_loss; s_best_state := best_state; s_window := window;
            s_loss_log := s_loss_log s ++ [loss];
            s_wavg_log := s_wavg_log s ++ [fmean window];
            s_l1_log := s_l1_log s ++ [l1] |}
  end.

(** [for it in range(n)] *)
Fixpoint iterations (n : nat) (s : tstate) : res tstate :=
  match n with
  | 0 => Ok s
  | S n' => let! s' := iterations n' s in iteration n' s'
  end.

(** Lines 82-98: state before the loop. *)
Definition initial_state (w0 : W) (o0 : O) (learning_rate : R) : tstate :=
  {| s_weights := w0; s_opt := o0; s_lr := learning_rate;
     s_plateau := {| pl_best := PInf; pl_bad := 0 |};
     s_best_loss := PInf; s_best_state := None; s_window := [];
     s_loss_log := []; s_wavg_log := []; s_l1_log := [] |}.

(** Lines 71-199 [run_training]: returns the final weights and the logs
    (loss_log, weighted_average_log, L1_errs). *)
Definition run_training (n : nat) (w0 : W) (o0 : O) (learning_rate : R)
    : res (W * (list pyfloat * list pyfloat * list pyfloat)) :=
  let! s := iterations n (initial_state w0 o0 learning_rate) in
  Ok (load_best s, (s_loss_log s, s_wavg_log s, s_l1_log s)).
End Loop.
Arguments tstate : clear implicits.
