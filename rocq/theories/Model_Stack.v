(** nidn/trcwa/trcwa.py: the layer lists of a TRCWA object (class TRCWA, lines 12-95). *)
From Coq Require Import Reals ZArith String List Bool.
From Verif Require Import Base.
Import ListNotations.
Open Scope nat_scope.

Section Stack.
(** [E] is the type of permittivities, [P] of Fourier-layer parameters, [T] of
    thicknesses: stored and returned unchanged. *)
Context {T E P : Type}.

(** trcwa.py:39-67, the attributes that describe layers *)
Record stack := mkStack {
  Layer_N : nat;
  thickness_list : list T;
  id_list : list (list nat);       (* [type, No., No. in patterned/uniform, No. in its family] *)
  Uniform_ep_list : list E;
  Uniform_N : nat;
  Patterned_N : nat;
  GridLayer_N : nat;
  GridLayer_Nxy_list : list (nat * nat);
  FourierLayer_N : nat;
  FourierLayer_params : list P
}.

(** trcwa.py:13-67 [__init__] *)
Definition empty_stack : stack := mkStack 0 [] [] [] 0 0 0 [] 0 [].

(** trcwa.py:69-77 *)
Definition Add_LayerUniform (thickness : T) (epsilon : E) (s : stack) : stack :=
  mkStack (S (Layer_N s)) (thickness_list s ++ [thickness])
    (id_list s ++ [[0; Layer_N s; Uniform_N s]])
    (Uniform_ep_list s ++ [epsilon]) (S (Uniform_N s))
    (Patterned_N s) (GridLayer_N s) (GridLayer_Nxy_list s)
    (FourierLayer_N s) (FourierLayer_params s).

(** trcwa.py:79-86 *)
Definition Add_LayerGrid (thickness : T) (Nx Ny : nat) (s : stack) : stack :=
  mkStack (S (Layer_N s)) (thickness_list s ++ [thickness])
    (id_list s ++ [[1; Layer_N s; Patterned_N s; GridLayer_N s]])
    (Uniform_ep_list s) (Uniform_N s)
    (S (Patterned_N s)) (S (GridLayer_N s)) (GridLayer_Nxy_list s ++ [(Nx, Ny)])
    (FourierLayer_N s) (FourierLayer_params s).

(** trcwa.py:88-95 *)
Definition Add_LayerFourier (thickness : T) (params : P) (s : stack) : stack :=
  mkStack (S (Layer_N s)) (thickness_list s ++ [thickness])
    (id_list s ++ [[2; Layer_N s; Patterned_N s; FourierLayer_N s]])
    (Uniform_ep_list s) (Uniform_N s)
    (S (Patterned_N s)) (GridLayer_N s) (GridLayer_Nxy_list s)
    (S (FourierLayer_N s)) (FourierLayer_params s ++ [params]).

(** The three public calls as data, so that a history is a list. *)
Inductive layer_call :=
| Uniform (t : T) (e : E)
| Grid (t : T) (Nx Ny : nat)
| Fourier (t : T) (p : P).

Definition add_layer (c : layer_call) (s : stack) : stack :=
  match c with
  | Uniform t e => Add_LayerUniform t e s
  | Grid t Nx Ny => Add_LayerGrid t Nx Ny s
  | Fourier t p => Add_LayerFourier t p s
  end.

Definition add_layers (cs : list layer_call) (s : stack) : stack :=
  fold_left (fun s c => add_layer c s) cs s.
End Stack.
Arguments stack : clear implicits.
Arguments layer_call : clear implicits.
