(** Vocabulary for the statements of C12-C17. *)
From Coq Require Import Reals String List Bool.
From Verif Require Import Base Cplx Model_EpsGrid.
Import ListNotations.
Open Scope R_scope.

(** Entry (x,y,l,f) of a nested-list tensor. *)
Definition at4 {A} (g : grid4 A) (d : A) (x y l f : nat) : A :=
  nth f (nth l (nth y (nth x g []) []) []) d.

(** A nested list is an n1 x n2 x n3 x n4 tensor. *)
Definition shape4 {A} (g : grid4 A) (n1 n2 n3 n4 : nat) : Prop :=
  length g = n1 /\ (forall a, In a g -> length a = n2 /\
    (forall b, In b a -> length b = n3 /\ (forall c, In c b -> length c = n4))).

(** The ranges of the configuration are not inverted. *)
Definition ranges_ok (cfg : eps_cfg) : Prop := e_rmin cfg <= e_rmax cfg /\ e_imin cfg <= e_imax cfg.

(** eps_oversampling is positive and divides Nx and Ny (validator, C04). *)
Definition os_ok (cfg : eps_cfg) : Prop :=
  (0 < e_os cfg)%nat /\ (e_Nx cfg mod e_os cfg = 0)%nat /\ (e_Ny cfg mod e_os cfg = 0)%nat.

(** The network returned one row of [k] numbers per sampled point. *)
Definition rows_ok (cfg : eps_cfg) (k : nat) (rows : list (list R)) : Prop :=
  length rows = ((e_Nx cfg / e_os cfg) * (e_Ny cfg / e_os cfg) * e_N_layers cfg * e_N_freq cfg)%nat
  /\ forall r, In r rows -> length r = k.

(** Number of the row belonging to undersampled cell (i,j), layer l, frequency k. *)
Definition row_no (cfg : eps_cfg) (i j l k : nat) : nat :=
  (((i * (e_Ny cfg / e_os cfg) + j) * e_N_layers cfg + l) * e_N_freq cfg + k)%nat.

(** Sampling coordinates.  Index i of n equidistant points on [-1,1] (-1 if n = 1). *)
Definition tick (n i : nat) : R := if Nat.eqb n 1 then -1 else -1 + 2 * (INR i / INR (n - 1)).
(** Total thickness of layers 1..l (layer 0 not counted). *)
Definition height (t : list R) (l : nat) : R := Rsum (firstn l (tl t)).
(** Coordinate of layer l: equidistant for a one-entry thickness list, otherwise
    proportional to the heights. *)
Definition ztick (N_layers : nat) (t : list R) (l : nat) : R :=
  if Nat.eqb (length t) 1 then tick N_layers l
  else 2 * (height t l / height t (length t - 1)) - 1.

(** Softmax with inverse temperature 16. *)
Definition softmax16 (o : list R) (m : nat) : R :=
  exp (16 * nth m o 0) / Rsum (map (fun x => exp (16 * x)) o).

(** Frequency-averaged network output m at undersampled cell (i,j), layer l. *)
Definition averaged (cfg : eps_cfg) (rows : list (list R)) (i j l m : nat) : R :=
  Rsum (map (fun f => nth m (nth (row_no cfg i j l f) rows []) 0) (seq 0 (e_N_freq cfg)))
  / INR (e_N_freq cfg).

(** every entry of the nested list, without assuming a shape *)
Definition entry4 {A} (g : grid4 A) (e : A) : Prop :=
  exists a b c, In a g /\ In b a /\ In c b /\ In e c.

(** The number the softmax sees for material m at cell (x,y,l): averaged output plus noise. *)
Definition classif_cell (cfg : eps_cfg) (rows : list (list R)) (noise : nat -> nat -> nat -> nat -> R)
  (x y l m : nat) : R :=
  averaged cfg rows (x / e_os cfg) (y / e_os cfg) l m
  + (if e_add_noise cfg then noise x y l m * e_noise_scale cfg else 0).

(** the weighted mean of material column f *)
Definition mix_at (w : list R) (rows : list (list C)) (f : nat) : C :=
  (Rsum (map (fun p => fst p * Re (nth f (snd p) C0)) (combine w rows)),
   Rsum (map (fun p => fst p * Im (nth f (snd p) C0)) (combine w rows))).

(** The same config with the noise switched off. *)
Definition quiet (cfg : eps_cfg) : eps_cfg :=
  {| e_type := e_type cfg; e_model_type := e_model_type cfg; e_Nx := e_Nx cfg; e_Ny := e_Ny cfg; e_os := e_os cfg;
     e_N_layers := e_N_layers cfg; e_N_freq := e_N_freq cfg; e_N_materials := e_N_materials cfg;
     e_target_frequencies := e_target_frequencies cfg; e_freq_distribution := e_freq_distribution cfg;
     e_thickness := e_thickness cfg; e_rmin := e_rmin cfg; e_rmax := e_rmax cfg; e_imin := e_imin cfg;
     e_imax := e_imax cfg; e_avoid_zero := e_avoid_zero cfg; e_add_noise := false;
     e_noise_scale := e_noise_scale cfg; e_epsilon_matrix := e_epsilon_matrix cfg |}.
