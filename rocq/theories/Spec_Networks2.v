(** What the networks compute (C54), independently of the code's loops. *)
From Coq Require Import Reals List.
From Verif Require Import Base Model_Networks.
Import ListNotations.
Open Scope R_scope.

(** w_0 x_0 + w_1 x_1 + ... *)
Fixpoint weighted (w : nat -> R) (x : list R) : R :=
  match x with [] => 0 | v :: r => w O * v + weighted (fun i => w (S i)) r end.
(** The signal behind a list of layers with their activations: neuron [o] gives
    the activation of the sum of the inputs weighted by row [o], plus its bias. *)
Definition neurons (l : linear) (f : R -> R) (x : list R) : list R :=
  map (fun o => f (weighted (l_w l o) x + l_b l o)) (seq 0 (l_out l)).
Fixpoint signal (layers : list (linear * (R -> R))) (x : list R) : list R :=
  match layers with [] => x | (l, f) :: r => signal r (neurons l f x) end.
