(** Vocabulary of the properties of TRCWA objects and spectra. *)
From Coq Require Import Reals ZArith String.
From mathcomp Require Import all_ssreflect all_algebra.
From Verif Require Import Base Cplx CplxLemmas CField Model_Lattice Spec_Lattice Model_Stack Model_Modes Model_TRCWA.
Import GRing.Theory.
Delimit Scope R_scope with coqR.
Delimit Scope Z_scope with coqZ.
Local Open Scope ring_scope.

(** The Fourier coefficient of a sampled periodic pattern at order (k, l). *)
Definition fourier (g : grid2) (k l : Z) : C :=
  (RtoC (/ (INR (g_nx g) * INR (g_ny g)))%coqR *
  \sum_(x < g_nx g) \sum_(y < g_ny g)
    g_at g x y * Cis (- (2 * PI) * (IZR k * (INR x / INR (g_nx g)) + IZR l * (INR y / INR (g_ny g))))%coqR)%R.

(** Component-wise difference of two orders *)
Definition order_diff (G : seq (Z * Z)) (i j : nat) : Z * Z :=
  (Z.sub (List.nth i G (0, 0)%coqZ).1 (List.nth j G (0, 0)%coqZ).1,
   Z.sub (List.nth i G (0, 0)%coqZ).2 (List.nth j G (0, 0)%coqZ).2).

(** The grid has enough cells to tell all orders in [G] apart. *)
Definition resolves (nx ny : nat) (G : seq (Z * Z)) : Prop :=
  forall i j, (i < size G)%N -> (j < size G)%N ->
    (Z.abs (order_diff G i j).1 < Z.of_nat nx)%coqZ /\ (Z.abs (order_diff G i j).2 < Z.of_nat ny)%coqZ.

(** Grids *)
Definition constant_grid (nx ny : nat) (c : C) : grid2 := mkGrid2 nx ny (fun _ _ => c).
Definition combine_grids (c d : C) (f g : grid2) : grid2 :=
  mkGrid2 (g_nx f) (g_ny f) (fun x y => c * g_at f x y + d * g_at g x y).
Definition real_grid (g : grid2) : Prop := forall x y, Im (g_at g x y) = 0%coqR.

(** Epsilon_fft keeps an entry of the permittivity matrix unless both parts are
    below 1e-14 (in the sense of [<], so also when they are very negative). *)
Definition kept (z : C) : Prop := (/ 10 ^ 14 <= Re z)%coqR \/ (/ 10 ^ 14 <= Im z)%coqR.

(** The thickness configured for material layer [i]: one number serves all layers. *)
Definition layer_thickness (ts : seq R) (i : nat) : option R :=
  List.nth_error ts (if size ts == 1%N then 0%N else i).

(** [md] are the modes computed for the permittivity pattern [g]. *)
Definition patterned_mode {G} (eig : eig_oracle) (omega : C) (kx ky : 'rV[C]_(size G)) (g : grid2)
    (md : mode (size G + size G)) : Prop :=
  exists ei e2, Epsilon_fft (1 / INR (g_nx g) / INR (g_ny g))%coqR (Iso g) G = Ok (ei, e2)
    /\ m_kp md = MakeKP_patterned omega ei kx ky
    /\ Solve_patterned (eig _) kx ky (m_kp md) e2 = Ok (m_q md, m_phi md).

(** The complex angular frequency of a simulation at target frequency [f]. *)
Definition omega_of (f : R) : C := ((2 * PI * f)%coqR, (2 * PI * f / (2 * 10 ^ 5))%coqR).

(** The frame of every stack: N material layers between a top and a bottom layer
    of thickness 1 with the configured permittivities, and the configured
    thicknesses in between. *)
Definition outer_ok (c : trcwa_cfg) (N : nat) {G} (r : ready G) : Prop :=
  size (s_modes r) = N.+2 /\ size (s_thick r) = N.+2
  /\ List.nth_error (s_thick r) 0 = Some 1%coqR /\ List.nth_error (s_thick r) N.+1 = Some 1%coqR
  /\ (forall i, (i < N)%N -> List.nth_error (s_thick r) i.+1 = layer_thickness (t_thick c) i)
  /\ (exists md, List.nth_error (s_modes r) 0 = Some (Some md)
        /\ uniform_layer (s_omega r) (s_kx r) (s_ky r) (RtoC (t_top c)) = Ok md)
  /\ (exists md, List.nth_error (s_modes r) N.+1 = Some (Some md)
        /\ uniform_layer (s_omega r) (s_kx r) (s_ky r) (RtoC (t_bottom c)) = Ok md).

(** The modes [md] of a layer whose cells hold [g]: a 1x1 cell is a uniform layer. *)
Definition layer_mode {G} (eig : eig_oracle) (r : ready G) (g : grid2) (md : mode (size G + size G)) : Prop :=
  if (g_nx g == 1%N) && (g_ny g == 1%N)
  then uniform_layer (s_omega r) (s_kx r) (s_ky r) (g_at g 0 0) = Ok md
  else patterned_mode eig (s_omega r) (s_kx r) (s_ky r) g md.

(** [torch.linalg.eig] returns eigenvalues and eigenvectors. *)
Definition eigenpairs (eig : eig_oracle) : Prop :=
  forall m (A : 'M[C]_m) w V, eig m A = Ok (w, V) -> A *m V = V *m diag_mx w.

(** ... that form a basis. *)
Definition eigenbasis (eig : eig_oracle) : Prop :=
  forall m (A : 'M[C]_m) w V, eig m A = Ok (w, V) -> A *m V = V *m diag_mx w /\ V \in unitmx.

(** A lattice and a number of orders with which at least the zero order is kept:
    independent vectors, at least two orders asked for, and no order as short as
    the tolerance of the truncation. *)
Definition usable (c : trcwa_cfg) : Prop :=
  exists (a b k1 k2 : vec2) (nG : Z),
    t_L1 c = as_arg a /\ t_L2 c = as_arg b /\ t_NG c = OInt nG /\ (2 <= nG)%coqZ
    /\ inner k1 a = 1%coqR /\ inner k1 b = 0%coqR /\ inner k2 a = 0%coqR /\ inner k2 b = 1%coqR
    /\ forall g, g <> (0, 0)%coqZ ->
         (/ 10 ^ 10 * Rmax (len2 k1 k2 (1, 0)%coqZ) (len2 k1 k2 (0, 1)%coqZ) < len2 k1 k2 g)%coqR.

(** Thresholding changes no Fourier coefficient of [g] between the orders in [G]. *)
Definition resolved_entries (g : grid2) (G : seq (Z * Z)) : Prop :=
  forall i j, (i < size G)%N -> (j < size G)%N ->
    let z := fourier g (order_diff G i j).1 (order_diff G i j).2 in z = 0 \/ kept z.

(** A material that does not amplify at the (slightly complex) frequency of a
    simulation: the imaginary part of the permittivity times the
    frequency is non-negative. *)
Definition passive_eps (e : C) : Prop := (0 <= Im e + Re e / (2 * 10 ^ 5))%coqR.

(** ... and one that absorbs (a positive real permittivity does, because the
    frequency has a positive imaginary part). *)
Definition absorbing_eps (e : C) : Prop := (0 < Im e + Re e / (2 * 10 ^ 5))%coqR.

(** [G] are the orders kept for the lattice and the number of orders of [c]. *)
Definition orders_of (argsort : seq R -> seq nat) (c : trcwa_cfg) (G : seq (Z * Z)) : Prop :=
  exists lk1 lk2 n, Lattice_Reciprocate (t_L1 c) (t_L2 c) = Ok (lk1, lk2)
    /\ Lattice_getG argsort (t_NG c) lk1 lk2 0%coqZ = Ok (G, n).

(** A stack of uniform films set up by hand through the public calls: a TRCWA
    object at (possibly complex) frequency [freq] and normal incidence, a top layer,
    the films, a bottom layer, Init_Setup and a forward plane wave of unit
    amplitude polarised along x. *)
Definition film_stack (argsort : seq R -> seq nat) (c : trcwa_cfg) (freq : C) (films : seq (R * eps_val)) : res excited :=
  let o := TRCWA_new (t_NG c) (t_L1 c) (t_L2 c) freq 0%coqR 0%coqR in
  let st := add_layers (Uniform 1%coqR (EReal (t_top c)) :: map (fun p => Uniform p.1 p.2) films
                          ++ [:: Uniform 1%coqR (EReal (t_bottom c))]) (r_stack o) in
  let! g := Init_Setup argsort (mkRcwa (r_nG o) (r_L1 o) (r_L2 o) (r_omega o) (r_theta o) (r_phi o) st) 1%coqR 0%coqZ in
  let! ab := MakeExcitationPlanewave (size (projT1 g)) 0%coqR 0%coqR 0 0%coqR 1 0%coqR 0%coqZ "forward" in
  Ok (mkExcited (projT1 g) (projT2 g) (fst ab) (snd ab) "forward").
