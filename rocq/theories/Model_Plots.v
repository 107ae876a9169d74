(** nidn/plots: what the plotting functions draw.

    Simplifications: a plot is the list of its curves or markers (positions and
    values); titles, colours, limits and the log are left out.  Lists of different
    lengths raise ValueError where matplotlib or numpy raise it (numpy would repeat
    a list of one entry, but then the plot of that list raises).  Means of empty
    lists are NaN in the code and 0 here.  Grids have at least one cell (a slice of
    an empty tensor can raise where the loop over its cells does not).  The n-th evaluation of the model
    [model_to_eps_grid] is an argument [eval n], since it can be noisy. *)
From Coq Require Import Reals ZArith String List Bool.
From Verif Require Import Base Cplx Model_Units Model_Materials Model_EpsGrid.
Import ListNotations.
Open Scope R_scope.

(** [ax.plot(x, y)]; [ax.plot] raises if the lengths differ. *)
Definition ax_plot (x y : list R) : res (list (R * R)) :=
  if Nat.eqb (length x) (length y) then Ok (combine x y) else Err ValueError.

(** [np.ones_like(R) - (T + R)], plot_spectrum.py:88-90 *)
Definition absorptance (Rs Ts : list R) : res (list R) :=
  if Nat.eqb (length Rs) (length Ts) then Ok (map (fun p => 1 - (snd p + fst p)) (combine Rs Ts)) else Err ValueError.

(** plot_spectrum.py:55-142 [plot_spectrum] with [_add_plot] (10-52): the curves.
    [target] is [run_cfg.target_frequencies], if the config has it. *)
Definition plot_spectrum (target : option (list R)) (wl_min wl_max : R) (N_freq : nat) (distribution : string)
    (Rs Ts : list R) (show_absorption : bool) : res (list (list (R * R))) :=
  let! freqs := match target with
                | Some fs => Ok fs
                | None => compute_target_frequencies wl_min wl_max N_freq distribution
                end in
  let! As := absorptance Rs Ts in
  let x := map freq_to_wl freqs in
  let! r := ax_plot x Rs in
  let! t := ax_plot x Ts in
  if show_absorption then let! a := ax_plot x As in Ok [r; t; a] else Ok [r; t].

(** plot_spectra.py:11-71 [_add_plot]: the two curves and the number written above *)
Definition spectra_panel (freqs produced target : list R) : res (list (R * R) * list (R * R) * R) :=
  let x := map (fun f => wl_to_phys_wl (freq_to_wl f) * 1000000) freqs in
  let! t := ax_plot x target in
  let! p := ax_plot x produced in
  Ok (t, p, Rmean (map (fun q => Rabs (fst q - snd q)) (combine target produced))).

(** The config entries the plots read *)
Record plot_cfg := mkPcfg {
  p_Nx : nat; p_Ny : nat; p_N_layers : nat; p_freqs : list R; p_target_R : list R; p_target_T : list R }.

(** plot_spectra.py:74-179 [plot_spectra]: panels for reflectance and transmittance *)
Definition plot_spectra (cfg : plot_cfg) (spectra : list R * list R)
    : res ((list (R * R) * list (R * R) * R) * (list (R * R) * list (R * R) * R)) :=
  let! _ := absorptance (fst spectra) (snd spectra) in
  let! _ := absorptance (p_target_R cfg) (p_target_T cfg) in
  let! r := spectra_panel (p_freqs cfg) (fst spectra) (p_target_R cfg) in
  let! t := spectra_panel (p_freqs cfg) (snd spectra) (p_target_T cfg) in
  Ok (r, t).

(** [torch.meshgrid] of the three [torch.linspace(-1, 1, n)] and [ax.scatter] of all
    points, with one number per point (plot_model_grid.py:17-20, 33-46; the same in
    plot_epsilon_grid.py, plot_material_grid.py and plot_model_grid_per_freq.py) *)
Definition positions (cfg : plot_cfg) : list (R * R * R) :=
  flat_map (fun x => flat_map (fun y => map (fun z => (x, y, z)) (linspace (-1) 1 (p_N_layers cfg)))
                              (linspace (-1) 1 (p_Ny cfg)))
           (linspace (-1) 1 (p_Nx cfg)).
Definition grid3 (A : Type) := list (list (list A)).
Definition ravel3 {A} (g : grid3 A) : list A := concat (concat g).
Definition scatter (cfg : plot_cfg) {A} (values : grid3 A) : res (list (R * R * R * A)) :=
  if Nat.eqb (length (ravel3 values)) (length (positions cfg))
  then Ok (combine (positions cfg) (ravel3 values)) else Err ValueError.

(** [torch.mean] over the frequencies of one cell *)
Definition Cmean (l : list C) : C := Cmul (RtoC (/ INR (length l))) (Csum l).

(** plot_model_grid.py:8-67 *)
Definition plot_model_grid (cfg : plot_cfg) (eps : grid4 C) : res (list (R * R * R * R)) :=
  scatter cfg (map (map (map (fun l => Cabs (Cmean l)))) eps).
(** plot_epsilon_grid.py:6-65 *)
Definition plot_epsilon_grid (cfg : plot_cfg) (eps : grid4 C) : res (list (R * R * R * R)) :=
  scatter cfg (map (map (map (fun l => sqrt (Rsum (map Cnorm2 l))))) eps).

(** plot_model_grid_per_freq.py:8-92: per frequency number the wavelength in the
    title and the markers with real and imaginary part.  [eps[:, :, :, i]] raises if
    there is no such frequency, the fifth pair of subplots does not exist
    (line 44).  Only non-negative numbers. *)
Fixpoint freq_panels (cfg : plot_cfg) (eps : grid4 C) (idx : nat) (freq_idx : list nat)
    : res (list (R * list (R * R * R * C))) :=
  match freq_idx with
  | [] => Ok []
  | i :: r =>
      let! cells := mmap (mmap (mmap (fun l => match nth_error l i with Some e => Ok e | None => Err IndexError end))) eps in
      let! _ := ensure (Nat.ltb idx 4) ValueError in
      let! m := scatter cfg cells in
      let! f := match nth_error (p_freqs cfg) i with Some f => Ok f | None => Err IndexError end in
      let! rest := freq_panels cfg eps (S idx) r in
      Ok ((freq_to_wl f, m) :: rest)
  end.
Definition plot_model_grid_per_freq (cfg : plot_cfg) (eps : grid4 C) (freq_idx : list nat) :=
  freq_panels cfg eps 0 freq_idx.

(** plot_material_grid.py:11-119: the number of the closest material, from 1, and the
    labels of the numbers *)
Definition plot_material_grid (cfg : plot_cfg) (files : list mfile) (to_skip : list string) (eps : grid4 C)
    : res (list (R * R * R * nat) * list (nat * string)) :=
  let! mc := MaterialCollection files (p_freqs cfg) to_skip in
  let! ids := mmap (mmap (mmap (fun l => let! r := find_closest mc l in Ok (snd r)))) eps in
  let! m := scatter cfg (map (map (map S)) ids) in
  Ok (m, combine (seq 1 (length (material_names mc))) (material_names mc)).

(** plot_eps_per_point.py:13-164, [compare_to_material=None]: one curve per cell, its
    name given by the numbers of layer, x and y, and the names of the closest
    materials ([torch.unique]).  Line 148 reads the first entry of the
    permittivities of each such material, which are a vector only for more than one
    frequency (C09). *)
Definition point_names (eps : grid4 C) : list (nat * nat * nat) :=
  flat_map (fun x => flat_map (fun y => map (fun l => (l, x, y)) (seq 0 (length (nth 0 (nth 0 eps []) []))))
                              (seq 0 (length (nth 0 eps []))))
           (seq 0 (length eps)).
Definition unique_ids (n : nat) (ids : list nat) : list nat := filter (fun i => existsb (Nat.eqb i) ids) (seq 0 n).
Definition plot_eps_per_point (cfg : plot_cfg) (files : list mfile) (eps : grid4 C)
    : res (list (list (R * C)) * list (nat * nat * nat) * list string) :=
  let! mc := MaterialCollection files (p_freqs cfg) [] in
  let wl := map freq_to_wl (p_freqs cfg) in
  let! curves := mmap (fun l => if Nat.eqb (length wl) (length l) then Ok (combine wl l) else Err ValueError) (ravel3 eps) in
  let! ids := mmap (fun l => let! r := find_closest mc l in Ok (snd r)) (ravel3 eps) in
  let names := map (fun i => nth i (material_names mc) EmptyString) (unique_ids (length (material_names mc)) ids) in
  let! _ := for_each names (fun nm => let! t := mc_getitem mc nm in
                                      match t with T1 (_ :: _) => Ok tt | _ => Err IndexError end) in
  Ok (curves, point_names eps, names).

(** save_all_plots.py:11-39: the files written, in order, and the exception that
    ended it, if any.  [losses] stands for plot_losses.py, which draws the logs of
    the results. *)
Fixpoint save_plots (jobs : list (string * res unit)) : list string * option exn :=
  match jobs with
  | [] => ([], None)
  | (file, Ok tt) :: r => let (files, e) := save_plots r in (file :: files, e)
  | (_, Err e) :: _ => ([], Some e)
  end.
Definition drop {A} (r : res A) : res unit := let! _ := r in Ok tt.
Definition save_all_plots (cfg : plot_cfg) (files : list mfile) (eval : nat -> res (grid4 C))
    (spectrum : grid4 C -> res (list R * list R)) (losses : res unit) : list string * option exn :=
  save_plots
    [("spectra_comparison.png"%string, drop (let! eps := eval 0%nat in let! s := spectrum eps in plot_spectra cfg s));
     ("losses.png"%string, losses);
     ("model_grid.png"%string, drop (let! eps := eval 1%nat in plot_model_grid cfg eps));
     ("model_grid_per_freq.png"%string, drop (let! eps := eval 2%nat in plot_model_grid_per_freq cfg eps [0; 1; 2; 3]%nat));
     ("material_grid.png"%string, drop (let! eps := eval 3%nat in plot_material_grid cfg files [] eps));
     ("eps_per_pointsNone.png"%string, drop (let! eps := eval 4%nat in plot_eps_per_point cfg files eps))].
