(** Vocabulary of the layer bookkeeping properties. *)
From Coq Require Import Reals ZArith String List Bool.
From Verif Require Import Base Model_Stack.
Import ListNotations.
Open Scope nat_scope.

Section S.
Context {T E P : Type}.
Definition is_uniform (c : layer_call T E P) : bool := match c with Uniform _ _ => true | _ => false end.
Definition is_grid (c : layer_call T E P) : bool := match c with Grid _ _ _ => true | _ => false end.
Definition is_fourier (c : layer_call T E P) : bool := match c with Fourier _ _ => true | _ => false end.
Definition call_thickness (c : layer_call T E P) : T :=
  match c with Uniform t _ => t | Grid t _ _ => t | Fourier t _ => t end.
Definition count (p : layer_call T E P -> bool) (cs : list (layer_call T E P)) : nat :=
  length (filter p cs).

(** What the entry of a layer must refer to. *)
Definition refers (s : stack T E P) (i : nat) (c : layer_call T E P) (id : list nat) : Prop :=
  match c with
  | Uniform t e => exists k, id = [0; i; k] /\ nth_error (Uniform_ep_list s) k = Some e
  | Grid t Nx Ny => exists p g, id = [1; i; p; g] /\ p < Patterned_N s
                                /\ nth_error (GridLayer_Nxy_list s) g = Some (Nx, Ny)
  | Fourier t q => exists p f, id = [2; i; p; f] /\ p < Patterned_N s
                               /\ nth_error (FourierLayer_params s) f = Some q
  end.
End S.
