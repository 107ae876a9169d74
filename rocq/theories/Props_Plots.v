(** Property theorems C69: what the plots show.  [drawn], [fits], [some_cell],
    [cell_eps], [good_files], [material_data] and [is_closest] are defined in
    Spec_Plots.v. *)
From Coq Require Import Reals String List Bool Lra Lia.
From Verif Require Import Base Cplx Model_Units Model_Materials Spec_Materials Model_EpsGrid Spec_EpsGrid
  Model_Losses Spec_Losses Model_Plots Spec_Plots Proof_Plots.
Import ListNotations.
Open Scope R_scope.

(** The spectrum plot: reflectance and transmittance over wavelength, and an
    absorptance that completes them to 1. *)
Theorem C69_spectrum : forall freqs wl1 wl2 n d Rs Ts show, length Rs = length freqs -> length Ts = length freqs ->
  exists r t a, plot_spectrum (Some freqs) wl1 wl2 n d Rs Ts show = Ok (if show then [r; t; a] else [r; t])
    /\ forall i f rho tau, nth_error freqs i = Some f -> nth_error Rs i = Some rho -> nth_error Ts i = Some tau ->
         nth_error r i = Some (1 / f, rho) /\ nth_error t i = Some (1 / f, tau)
         /\ exists alpha, nth_error a i = Some (1 / f, alpha) /\ rho + tau + alpha = 1.
Proof. exact spectrum_curves. Qed.
Print Assumptions C69_spectrum.
Theorem C69_spectrum_lengths : forall freqs wl1 wl2 n d Rs Ts show, length Rs <> length freqs \/ length Ts <> length freqs ->
  plot_spectrum (Some freqs) wl1 wl2 n d Rs Ts show = Err ValueError.
Proof. exact spectrum_lengths. Qed.
Print Assumptions C69_spectrum_lengths.
Theorem C69_spectrum_no_targets : forall wl1 wl2 n d Rs Ts show,
  plot_spectrum None wl1 wl2 n d Rs Ts show =
  match compute_target_frequencies wl1 wl2 n d with
  | Ok freqs => plot_spectrum (Some freqs) wl1 wl2 n d Rs Ts show
  | Err e => Err e
  end.
Proof. exact spectrum_missing. Qed.
Print Assumptions C69_spectrum_no_targets.

(** The comparison with the target: both curves over the same wavelengths; the number
    above each is non-negative and zero exactly if they agree; the mean of the two is
    the loss of the training (exponent 1, no absorption term). *)
Theorem C69_spectra : forall cfg pR pT,
  p_freqs cfg <> [] ->
  length pR = length (p_freqs cfg) -> length pT = length (p_freqs cfg) ->
  length (p_target_R cfg) = length (p_freqs cfg) -> length (p_target_T cfg) = length (p_freqs cfg) ->
  exists tr pr eR tt pt eT, plot_spectra cfg (pR, pT) = Ok ((tr, pr, eR), (tt, pt, eT))
    /\ (forall i f, nth_error (p_freqs cfg) i = Some f ->
          (forall v, nth_error pR i = Some v -> nth_error pr i = Some (1 / f, v))
          /\ (forall v, nth_error pT i = Some v -> nth_error pt i = Some (1 / f, v))
          /\ (forall v, nth_error (p_target_R cfg) i = Some v -> nth_error tr i = Some (1 / f, v))
          /\ (forall v, nth_error (p_target_T cfg) i = Some v -> nth_error tt i = Some (1 / f, v)))
    /\ 0 <= eR /\ (eR = 0 <-> pR = p_target_R cfg) /\ 0 <= eT /\ (eT = 0 <-> pT = p_target_T cfg)
    /\ (physical pR pT ->
        spectrum_loss pR pT (p_target_R cfg) (p_target_T cfg) (p_freqs cfg) 1 false = Ok ((eR + eT) / 2, false)).
Proof. exact spectra_panels. Qed.
Print Assumptions C69_spectra.

(** The model grid: one marker per cell, coloured by the absolute value of the mean
    permittivity.  It never exceeds the mean absolute value and equals it for a
    permittivity that does not depend on the frequency. *)
Theorem C69_model_grid : forall cfg eps, fits cfg eps ->
  exists ms v, plot_model_grid cfg eps = Ok ms /\ drawn cfg ms v
    /\ forall i j l, (i < p_Nx cfg)%nat -> (j < p_Ny cfg)%nat -> (l < p_N_layers cfg)%nat ->
         v i j l = Cabs (Csum (cell_eps eps i j l)) / INR (length (p_freqs cfg))
         /\ v i j l <= Rmean (map Cabs (cell_eps eps i j l))
         /\ (forall e n, (0 < n)%nat -> cell_eps eps i j l = repeat e n -> v i j l = Cabs e).
Proof. exact model_grid_drawn. Qed.
Print Assumptions C69_model_grid.
(** It need not show the absolute permittivity: permittivities of absolute value 1
    at every frequency can be drawn as 0. *)
Theorem C69_model_grid_absolute_refuted : exists cfg eps, fits cfg eps /\ some_cell cfg
  /\ (forall i j l f, (i < p_Nx cfg)%nat -> (j < p_Ny cfg)%nat -> (l < p_N_layers cfg)%nat -> (f < length (p_freqs cfg))%nat ->
        Cabs (at4 eps C0 i j l f) = 1)
  /\ plot_model_grid cfg eps = Ok [(-1, -1, -1, 0)].
Proof. exact model_grid_cancels. Qed.
Print Assumptions C69_model_grid_absolute_refuted.

(** The epsilon grid shows the norm over the frequencies: a permittivity that does
    not depend on the frequency is drawn with a factor that grows with their number. *)
Theorem C69_epsilon_grid : forall cfg eps, fits cfg eps ->
  exists ms v, plot_epsilon_grid cfg eps = Ok ms /\ drawn cfg ms v
    /\ forall i j l, (i < p_Nx cfg)%nat -> (j < p_Ny cfg)%nat -> (l < p_N_layers cfg)%nat ->
         v i j l = sqrt (Rsum (map (fun e => Cabs e * Cabs e) (cell_eps eps i j l)))
         /\ (forall e n, cell_eps eps i j l = repeat e n -> v i j l = sqrt (INR n) * Cabs e).
Proof. exact epsilon_grid_drawn. Qed.
Print Assumptions C69_epsilon_grid.

(** The grid per frequency works for at most four frequencies, all of them existing,
    and then shows in each panel the wavelength and permittivities of its frequency. *)
Theorem C69_per_frequency_iff : forall cfg eps fi, fits cfg eps -> some_cell cfg ->
  ((exists ps, plot_model_grid_per_freq cfg eps fi = Ok ps)
   <-> Forall (fun i => (i < length (p_freqs cfg))%nat) fi /\ (length fi <= 4)%nat).
Proof. exact freq_panels_iff. Qed.
Print Assumptions C69_per_frequency_iff.
Theorem C69_per_frequency : forall cfg eps fi, fits cfg eps ->
  Forall (fun i => (i < length (p_freqs cfg))%nat) fi -> (length fi <= 4)%nat ->
  exists ps, plot_model_grid_per_freq cfg eps fi = Ok ps /\ length ps = length fi
    /\ forall k i, nth_error fi k = Some i ->
         exists ms, nth_error ps k = Some (1 / nth i (p_freqs cfg) 0, ms) /\ drawn cfg ms (fun x y l => at4 eps C0 x y l i).
Proof. exact (fun cfg eps fi => freq_panels_ok cfg eps fi 0). Qed.
Print Assumptions C69_per_frequency.

(** The material grid: the label of a cell's colour is a closest material. *)
Theorem C69_material_grid : forall cfg files skip eps mats, fits cfg eps -> (2 <= length (p_freqs cfg))%nat -> good_files files ->
  (2 <= length (kept files skip))%nat -> material_data (kept files skip) (p_freqs cfg) mats ->
  exists ms labels number, plot_material_grid cfg files skip eps = Ok (ms, labels)
    /\ drawn cfg ms number
    /\ (forall i j l, (i < p_Nx cfg)%nat -> (j < p_Ny cfg)%nat -> (l < p_N_layers cfg)%nat ->
          exists m, number i j l = S m /\ is_closest mats (cell_eps eps i j l) m)
    /\ (forall m name, In (S m, name) labels <-> exists table, nth_error (kept files skip) m = Some (name, table)).
Proof. exact material_markers. Qed.
Print Assumptions C69_material_grid.

(** The permittivity plot: the curve of each cell stands at the place of its name; the
    materials drawn are those closest to some cell, and each cell has its closest one
    drawn. *)
Theorem C69_points : forall cfg files eps mats, fits cfg eps -> some_cell cfg -> (2 <= length (p_freqs cfg))%nat -> good_files files ->
  material_data files (p_freqs cfg) mats ->
  exists curves points names, plot_eps_per_point cfg files eps = Ok (curves, points, names)
    /\ length curves = (p_Nx cfg * p_Ny cfg * p_N_layers cfg)%nat
    /\ (forall i j l, (i < p_Nx cfg)%nat -> (j < p_Ny cfg)%nat -> (l < p_N_layers cfg)%nat ->
          let k := ((i * p_Ny cfg + j) * p_N_layers cfg + l)%nat in
          nth_error points k = Some (l, i, j)
          /\ exists curve, nth_error curves k = Some curve /\ length curve = length (p_freqs cfg)
             /\ forall n, (n < length (p_freqs cfg))%nat ->
                 nth_error curve n = Some (1 / nth n (p_freqs cfg) 0, at4 eps C0 i j l n))
    /\ (forall name, In name names -> exists m table i j l,
          nth_error files m = Some (name, table)
          /\ (i < p_Nx cfg)%nat /\ (j < p_Ny cfg)%nat /\ (l < p_N_layers cfg)%nat /\ is_closest mats (cell_eps eps i j l) m)
    /\ (forall i j l, (i < p_Nx cfg)%nat -> (j < p_Ny cfg)%nat -> (l < p_N_layers cfg)%nat ->
          exists m name table, nth_error files m = Some (name, table) /\ In name names /\ is_closest mats (cell_eps eps i j l) m).
Proof. exact point_curves. Qed.
Print Assumptions C69_points.
(** For a single frequency it raises. *)
Theorem C69_points_one_frequency_raises : forall cfg files eps f, fits cfg eps -> some_cell cfg -> p_freqs cfg = [f] -> good_files files ->
  exists e, plot_eps_per_point cfg files eps = Err e.
Proof. exact points_one_frequency. Qed.
Print Assumptions C69_points_one_frequency_raises.

(** Saving all plots of a run: with four or more frequencies all six files are
    written; with fewer the call raises after three. *)
Theorem C69_all_plots : forall cfg files eval spectrum eps pR pT,
  (forall n, eval n = Ok (eps n) /\ fits cfg (eps n)) -> some_cell cfg -> good_files files ->
  spectrum (eps 0%nat) = Ok (pR, pT) -> p_freqs cfg <> [] ->
  length pR = length (p_freqs cfg) -> length pT = length (p_freqs cfg) ->
  length (p_target_R cfg) = length (p_freqs cfg) -> length (p_target_T cfg) = length (p_freqs cfg) ->
  save_all_plots cfg files eval spectrum (Ok tt) =
  if (4 <=? length (p_freqs cfg))%nat
  then (["spectra_comparison.png"; "losses.png"; "model_grid.png"; "model_grid_per_freq.png"; "material_grid.png"; "eps_per_pointsNone.png"]%string, None)
  else (["spectra_comparison.png"; "losses.png"; "model_grid.png"]%string, Some IndexError).
Proof. exact all_plots. Qed.
Print Assumptions C69_all_plots.

(** Cases that meet the hypotheses: a grid of 2 x 1 x 1 cells at four frequencies and
    two materials. *)
Definition case_cfg : plot_cfg := mkPcfg 2 1 1 [1; 2; 3; 4] [0; 0; 0; 0] [1; 1; 1; 1].
Definition case_eps : grid4 C := [[[[RtoC 1; RtoC 2; RtoC 3; RtoC 4]]]; [[[RtoC 5; RtoC 6; RtoC 7; RtoC 8]]]].
Definition case_files : list mfile := [("air"%string, [{| Wavelength := 1; n_ := 1; k_ := 0 |}]); ("glass"%string, [{| Wavelength := 1; n_ := 3 / 2; k_ := 0 |}])].
Example C69_case_grid : fits case_cfg case_eps /\ some_cell case_cfg /\ good_files case_files.
Proof.
  split; [|split].
  - split; [reflexivity|]. intros a [<-|[<-|[]]]; split; try reflexivity; intros b [<-|[]]; split; try reflexivity; intros c [<-|[]]; reflexivity.
  - repeat split; cbn; lia.
  - split; [|split; [|cbn; lia]].
    + repeat constructor; cbn; [|auto]. intros [H|[]]. discriminate.
    + intros f [<-|[<-|[]]]; discriminate.
Qed.
Example C69_case_plots : save_all_plots case_cfg case_files (fun _ => Ok case_eps) (fun _ => Ok ([0; 0; 0; 0], [1; 1; 1; 1])) (Ok tt)
  = (["spectra_comparison.png"; "losses.png"; "model_grid.png"; "model_grid_per_freq.png"; "material_grid.png"; "eps_per_pointsNone.png"]%string, None).
Proof.
  destruct C69_case_grid as (F & S & G).
  apply (C69_all_plots case_cfg case_files (fun _ => Ok case_eps) _ (fun _ => case_eps) [0; 0; 0; 0] [1; 1; 1; 1]); auto; discriminate.
Qed.
