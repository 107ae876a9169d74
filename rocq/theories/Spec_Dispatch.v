(** What the entry point of the solvers is expected to do. *)
From Coq Require Import Reals ZArith String List.
From mathcomp Require Import all_ssreflect.
From Verif Require Import Base PyVal Cplx Spec_Config Model_Lattice Model_Modes Model_TRCWA.
Delimit Scope R_scope with coqR.

(** No permittivity of the tensor is NaN. *)
Definition no_nan (e : eps4) : Prop :=
  forall x y l f, (x < e_nx e)%N -> (y < e_ny e)%N -> (l < e_nl e)%N -> (f < e_nf e)%N ->
    exists z, e_at e x y l f = Some z.

(** Frequencies were passed, as many as announced, and the tensor has the
    announced shape. *)
Definition shapes_match (e : eps4) (u : trcwa_run) (fs : seq R) : Prop :=
  u_freqs u = Some fs /\ Z.of_nat (size fs) = u_Nf u
  /\ Z.of_nat (e_nx e) = u_Nx u /\ Z.of_nat (e_ny e) = u_Ny u
  /\ Z.of_nat (e_nl e) = u_Nl u /\ Z.of_nat (e_nf e) = u_Nf u.

(** Slice [i] of [e] holds the same permittivities as slice [j] of [e']. *)
Definition same_slice (e : eps4) (i : nat) (e' : eps4) (j : nat) : Prop :=
  e_nx e = e_nx e' /\ e_ny e = e_ny e' /\ e_nl e = e_nl e'
  /\ forall x y l, (x < e_nx e)%N -> (y < e_ny e)%N -> (l < e_nl e)%N -> e_at e x y l i = e_at e' x y l j.

(** Nested lists of the permittivities at frequency number [k]. *)
Definition lists_of (e : eps4) (k : nat) (L : list (list (list C))) : Prop :=
  length L = e_nx e /\ forall x, (x < e_nx e)%N -> length (List.nth x L nil) = e_ny e /\
  forall y, (y < e_ny e)%N -> length (List.nth y (List.nth x L nil) nil) = e_nl e /\
  forall l, (l < e_nl e)%N -> e_at e x y l k = Some (List.nth l (List.nth y (List.nth x L nil) nil) C0).

(** The result at one frequency: set up the solver for that slice, then solve. *)
Definition one_frequency (argsort : seq R -> seq nat) (eig : eig_oracle) (e : eps4) (u : trcwa_run)
    (i : nat) (f : R) (res : res (C * C)) : Prop :=
  match init_trcwa argsort eig (u_cfg u) (e_nx e) (e_ny e) (e_nl e) (slice4 e i) f with
  | Ok x => res = RT_Solve true x
  | Err er => res = Err er
  end.

(** Numbers in the config. *)
Definition entry_num (c : config) (k : string) (x : R) : Prop :=
  exists v, entry c k v /\ num_of v = Some (Fin x).
Definition numbers (l : list pyval) (xs : seq R) : Prop :=
  Forall2 (fun v x => num_of v = Some (Fin x)) l xs.
Definition entry_nums (c : config) (k : string) (xs : seq R) : Prop :=
  exists l, entry c k (VList l) /\ numbers l xs.

(** The run a config describes, for a lattice given by two rows of numbers. *)
Record describes (c : config) (u : trcwa_run) : Prop := {
  d_Nx : entry_num c "Nx" (IZR (u_Nx u));
  d_Ny : entry_num c "Ny" (IZR (u_Ny u));
  d_Nl : entry_num c "N_layers" (IZR (u_Nl u));
  d_Nf : entry_num c "N_freq" (IZR (u_Nf u));
  d_freqs : match u_freqs u with
            | Some fs => entry_nums c "target_frequencies" fs
            | None => forall v, ~ entry c "target_frequencies" v
            end;
  d_NG : exists n, t_NG (u_cfg u) = OInt n /\ entry_num c "TRCWA_NG" (IZR n);
  d_L : exists l1 l2 rest a b, entry c "TRCWA_L_grid" (VList (VList l1 :: VList l2 :: rest))
          /\ numbers l1 a /\ numbers l2 b /\ t_L1 (u_cfg u) = LList a /\ t_L2 (u_cfg u) = LList b;
  d_top : entry_num c "TRCWA_TOP_LAYER_EPS" (t_top (u_cfg u));
  d_bottom : entry_num c "TRCWA_BOTTOM_LAYER_EPS" (t_bottom (u_cfg u));
  d_thick : entry_nums c "PER_LAYER_THICKNESS" (t_thick (u_cfg u)) }.
