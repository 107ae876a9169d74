(** nidn/utils/compute_spectrum.py ("disp"): the entry point of both solvers, and
    the config entries nidn/trcwa reads ("spec" is compute_spectrum_trcwa.py,
    "init" is init_trcwa.py).

    Simplifications: log messages and warnings are dropped; infinities and NaN in
    the config entries TRCWA reads are refused with OverflowError; the entries are
    read before the shapes are compared, so a missing entry, which a validated
    config does not have, is reported first. *)
From Coq Require Import Reals ZArith String.
From mathcomp Require Import all_ssreflect all_algebra.
From Verif Require Import Base PyVal Cplx Model_Config Model_Layout Model_Lattice Model_Stack Model_Modes Model_TRCWA.
Delimit Scope R_scope with coqR.
Delimit Scope Z_scope with coqZ.

(** init 38-39: a row of TRCWA_L_grid; anything but a list fails the assertion of
    [Lattice_Reciprocate]. *)
Definition lattice_row (v : pyval) : res lattice_arg :=
  match v with
  | VList l => let! r := Model_Config.map_res real_item l in Ok (LList r)
  | _ => Ok LOther
  end.

(** init 37: TRCWA_NG; [isinstance(nG, int)] holds of a bool *)
Definition order_entry (v : pyval) : order_arg :=
  match v with
  | VInt z => OInt z
  | VBool b => OInt (if b then 1 else 0)%coqZ
  | _ => OOther
  end.

(** spec 31: ["target_frequencies" in run_cfg] *)
Definition frequencies_entry (c : config) : res (option (seq R)) :=
  match lookup c "target_frequencies" with
  | None => Ok None
  | Some (VList l) => let! r := Model_Config.map_res real_item l in Ok (Some r)
  | Some _ => Err TypeError
  end.

(** The config entries spec 31-40 and init 29-77 read. *)
Definition read_trcwa (c : config) : res trcwa_run :=
  let! fs := frequencies_entry c in
  let! nf := get_int c "N_freq" in
  let! nx := get_int c "Nx" in
  let! ny := get_int c "Ny" in
  let! nl := get_int c "N_layers" in
  let! g := getitem c "TRCWA_L_grid" in
  let! r0 := PyVal.py_index g 0 in
  let! r1 := PyVal.py_index g 1 in
  let! l1 := lattice_row r0 in
  let! l2 := lattice_row r1 in
  let! ng := getitem c "TRCWA_NG" in
  let! top := get_real c "TRCWA_TOP_LAYER_EPS" in
  let! bot := get_real c "TRCWA_BOTTOM_LAYER_EPS" in
  let! ts := get_reals c "PER_LAYER_THICKNESS" in
  Ok (mkTrun nx ny nl nf fs (mkTcfg (order_entry ng) l1 l2 top bot ts)).

(** [eps_grid[:, :, :, k]] as nested lists *)
Definition slice_lists (e : eps4) (k : nat) : eps_slice :=
  [seq [seq [seq slice4 e k x y l | l <- iota 0 (e_nl e)] | y <- iota 0 (e_ny e)] | x <- iota 0 (e_nx e)].

(** What [compute_spectrum] returns: nothing, or the lists (reflection,
    transmission) of either solver; the FDTD solver also changes the config. *)
Inductive spectrum :=
| NoSpectrum
| FdtdSpectrum (r t : seq pyfloat) (c : config)
| TrcwaSpectrum (r t : seq C).

(** [cfg.solver == name]; a missing key is an empty DotMap, which equals no string *)
Definition solver_is (c : config) (name : string) : bool :=
  match lookup c "solver" with Some v => py_eqb v (VStr name) | None => false end.

(** disp 9-27 [compute_spectrum].  A NaN given to the FDTD solver spreads through
    the fields without an exception; nothing is claimed of such a run. *)
Definition compute_spectrum (argsort : seq R -> seq nat) (eig : eig_oracle)
    (e : eps4) (c : config) (validate_cfg : bool) : res spectrum :=
  let! _ := (if validate_cfg then let! _ := validate_config c in Ok tt else Ok tt) in
  if solver_is c "FDTD" then
    if has_nan e then Err RuntimeError else
    let! r := compute_spectrum_fdtd [seq slice_lists e k | k <- iota 0 (e_nf e)] c in
    Ok (FdtdSpectrum r.1.1 r.1.2 r.2)
  else if solver_is c "TRCWA" then
    if has_nan e then Err ValueError else
    let! u := read_trcwa c in
    let! r := compute_spectrum_trcwa argsort eig e u in
    Ok (TrcwaSpectrum r.1 r.2)
  else Ok NoSpectrum.
