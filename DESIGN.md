# Formal model of NIDN in Rocq: design

## Method

The code in `/repo/nidn` is read as text and transcribed, function by function, into total
Gallina functions (`rocq/theories/Model_*.v`). Each definition carries a comment with the file and
lines it models and any simplification. Exceptions are values (`Err e`). Calls whose result the
code does not determine (networks during training, random numbers, eigen-decompositions, sorting
permutations, the clock, which attributes torch has) are *arguments* of the model functions, so
theorems quantify over everything they could return. Where a property needs something of such a
call (an eigensolver returning eigenvectors, a sort returning a sorted permutation) the theorem
says so as a hypothesis, and an `Example` exhibits one that meets it.

Files in `rocq/theories`:

* `Base.v`, `BaseLemmas.v`: results and exceptions, small helpers; `PyVal.v`: Python values;
  `Cplx.v`, `CplxLemmas.v`: complex numbers as pairs of reals; `CField.v`: the same as a mathcomp
  field, so that mathcomp's matrices can be used;
* `Model_*.v`: transcriptions, no proofs;
* `Spec_*.v`: small vocabulary used by theorem statements only (not by the models);
* `Proof_*.v`: lemmas;
* `Props_*.v`: the property theorems `Cnn_...`, each `exact`-ed from a lemma, with `Print
  Assumptions`, and `Example`s showing that the hypotheses are met by a concrete non-trivial case.

Where the code does not do what it documents, the theorem states what it does, and a `..._refuted`
theorem shows with a witness that the documented statement fails.

`seeded/LOG.jsonl` records the wrong programs the theorems were tested against: an edit of a model
definition, the claim it breaks, the theorems that stopped being provable, and the theorems that
were added or tightened when an edit got through.

## Idealisations

* Floating-point arithmetic is real arithmetic (Coq's `R`), except where NaN, infinities, ints and
  bools matter for control flow (the config validator, coefficients, `int()` conversions), which
  use an extended-float type. Rounding is treated in two
  places only: the columns of FDTD layers and detectors (C99) and the cells of lines (C96_line_rounding).
* A torch operation that would produce infinities or NaN in the TRCWA calculation (division by
  zero, inverse of a singular matrix, root of a negative real tensor) raises in the model; theorems
  about results then claim nothing of such runs.
* Tensors are lists, functions of indices, or mathcomp matrices.
* Log messages, warnings, progress bars, devices and gradients are dropped.

## Properties: what is modelled and how each is proved

| id | property | model files | theorems in | what is modelled, how it is proved |
|----|----------|-------------|-------------|-----|
| C01 | Unit conversions are mutually inverse | Units | Props_Units | conversions as functions on R; field identities, monotonicity of the reciprocal |
| C02 | A config that passes validation has exactly the known keys | Config | Props_Config | config = association list from names to Python values, the checks in the order of the code; induction over the key lists |
| C03 | A config that passes validation is well typed | Config | Props_Config | Python values as an inductive type (int, float incl. NaN/inf, bool, str, list, None); isinstance as a function; induction over key lists |
| C04 | A config that passes validation satisfies the documented value ranges | Config | Props_Config | range checks with extended floats; acceptance proved equivalent to a separate predicate |
| C05 | Positivity of list entries is (not) enforced | Config | Props_Config | all(list) as truthiness; characterisation and refutation of the documented claim |
| C06 | Target frequencies: count, bounds, order | Units | Props_Units | torch.linspace/logspace as exact formulas; algebra, monotonicity |
| C07 | Frequency points pair up physical wavelengths and frequencies | Units | Props_Units | map over target frequencies; algebra |
| C08 | Material permittivity is taken from the nearest tabulated wavelength | Materials | Props_Materials | table rows, first-minimum argmin; induction over the table |
| C09 | Material lookup by name | Materials | Props_Materials | tensor shapes with squeeze; case analysis, refutations for size-1 axes |
| C10 | Closest material is a true minimiser | Materials | Props_Materials | argmin over materials of the mean distance over frequencies; induction |
| C11 | Layer builder geometry | Materials | Props_Materials | linspace coordinates and strict comparisons of the layer builder; algebra |
| C12 | avoid_zero_eps keeps permittivity away from zero | EpsGrid | Props_EpsGrid | per-entry function on complex pairs; case analysis |
| C13 | Permittivity range of a regression model | EpsGrid | Props_EpsGrid | network output and noise are oracle arguments; clip lemmas |
| C14 | Oversampling produces constant blocks of the right shape | EpsGrid | Props_EpsGrid | repeat_interleave on nested lists; index lemma by induction |
| C15 | Regression channels: which network output feeds which frequency | EpsGrid | Props_EpsGrid | reshape as row-major index arithmetic; div/mod, refutation of the documented layout |
| C16 | Sampling coordinates of the model | EpsGrid | Props_EpsGrid | cumulative sums over thicknesses, meshgrid; induction over lists |
| C17 | Classification weights form a probability distribution and eps is their mixture | EpsGrid | Props_EpsGrid | softmax over lists of reals; sum lemmas, positivity of exp |
| C18 | Spectrum loss is a distance | Losses | Props_Losses | loops over zipped lists, powers by Rpower with 0 handled; induction |
| C19 | Renormalisation inside the loss | Losses | Props_Losses | sequential assignment of R and T; algebra and refutation |
| C20 | Likelihood regularisation loss | Losses | Props_Losses | mean over the flattened tensor; induction |
| C21 | Training logs have one entry per successful iteration | Training | Props_Losses | loop as a fold over iteration outcomes (oracle); invariant over the history |
| C22 | Training returns the best model seen | Training | Props_Losses | same; invariant, refutation for renormalised histories |
| C23 | Learning-rate schedule under errors | Training | Props_Losses | same, with optimizer and scheduler; invariant |
| C24 | Reflection/transmission normalisation | Coeffs | Props_Coeffs | function on extended floats; case analysis |
| C25 | Transient elimination returns a suffix | Coeffs | Props_Coeffs | list functions; induction |
| C26 | Peak finding is exact | Coeffs | Props_Coeffs | list function; equivalence with a predicate on positions |
| C27 | Coefficients are ratios of signal power | Coeffs | Props_Coeffs | list functions on extended floats; algebra |
| C28 | FDTD layout: layers tile the object region, detectors sit outside it | Layout, Register | Props_Layout | the whole of init_fdtd, int() as truncation of reals; monotonicity of truncation |
| C29 | FDTD spectra have one entry per wavelength in order | Layout | Props_Layout | spectrum loop over wavelengths with the FDTD engine inside; induction over the list |
| C30 | Curl operators are adjoint | FDTD | Props_FDTD | fields as functions of position and component on an Nx*Ny*Nz box, curls with the exact slices of grid.py; summation by parts for all sizes |
| C31 | FDTD energy conservation and stability | FDTD | Props_FDTD | full time step; telescoping energy identity, Cauchy-Schwarz bound of the curl; induction on steps |
| C32 | FDTD is linear | FDTD | Props_FDTD | step with boundaries, objects and sources; simulation relation, induction on steps; PML refutation |
| C33 | Finite propagation speed | FDTD | Props_FDTD | same; induction on steps |
| C34 | Divergence of H is conserved | FDTD | Props_FDTD | same; pointwise algebra and induction on steps |
| C35 | Time bookkeeping of the grid | FDTD | Props_FDTD | run loop, reset; iteration lemmas, refutation with PML |
| C36 | Detectors record each step exactly once | FDTD | Props_Absorber, Props_FDTD | detector lists in the state; induction on steps; the value of current detectors by algebra |
| C37 | Component names on a grid are unique | Register | Props_Register | registration as grid -> (grid, exception); induction over registration histories |
| C38 | Periodic boundaries copy opposite faces | FDTD, Register | Props_FDTD, Props_Register | periodic update as face copy; pointwise; histories for registration |
| C39 | What a PML adds | Register, FDTD | Props_Absorber, Props_Register | PML profiles and the convolutional update; exp monotonicity, solved recurrence by induction on steps |
| C40 | Silence stays silent (without PML) | FDTD | Props_FDTD | step with PML; induction; exact value after one step |
| C41 | Absorbing material only damps | Register, FDTD | Props_Register | absorbing objects; algebra, histories |
| C42 | Index normalisation of components | Register | Props_Register | index normalisation of all component kinds; arithmetic on Z |
| C43 | Source signals | Register, FDTD | Props_Absorber, Props_Register | waveforms with sin, cos, exp over R; bounds; what sources add at each step by induction |
| C44 | Reciprocal lattice | Lattice | Props_Lattice | vectors in R^2; field identities |
| C45 | Circular truncation selects whole shells | Lattice | Props_Lattice | candidate list, sort oracle specified as any sorting permutation, truncation loop; induction on the loop |
| C46 | Wave vectors and modes of uniform layers | Lattice, Modes | Props_Lattice, Props_Modes | wave vectors, uniform and patterned modes; eigensolver an oracle; algebra |
| C47 | Layer bookkeeping of TRCWA | Stack | Props_Stack | layer calls as a state machine; invariant over call histories |
| C48 | Permittivity Fourier matrices | TRCWA | Props_FFT | exact 2-D discrete Fourier transform; character sums |
| C49 | The S-matrix solves the layer-matching equations | Modes | Props_Modes | mathcomp block matrices over the complex field; induction over the layers |
| C50 | Poynting flux bookkeeping | Modes | Props_Modes | flux formulas on mathcomp vectors; algebra |
| C51 | TRCWA films: vacuum, Fresnel, Airy, energy balance, and which stacks can be solved | TRCWA, Modes, Stack, Lattice | Props_TRCWA | whole path from object to powers; induction over the layers, passivity by quadratic forms, invertibility of every matrix inverted |
| C52 | TRCWA stack construction follows the config | TRCWA | Props_TRCWA | init_trcwa with its reshaping; case analysis and induction over the layers |
| C53 | TRCWA spectra and dispatch | TRCWA, Dispatch | Props_Dispatch | spectrum loop and dispatch on the solver name; induction over frequencies |
| C54 | Networks that work and networks that cannot | Networks | Props_Networks | NERF, SIREN and voxel networks with all weights as arguments; shapes by induction on the layers |
| C55 | Signal averaging along the detector | Coeffs | Props_Coeffs | means along the detector; induction |
| C56 | Saving and loading runs | Runs | Props_Runs | file system as a map, crashes as truncated writes; induction over histories |
| C57 | Simulation/world unit conversion of fields | Units | Props_Units | functions on R; field identities |
| C58 | Backend selection | Backend | Props_Backend | string functions over an arbitrary set of torch attributes; case analysis |
| C59 | Announced layer thickness on the grid | Layout | Props_Layout | announced thickness vs layout; truncation arithmetic, witness |
| C60 | Standard absorbing border | Register | Props_Register | DomainBorderPML as six registrations; case analysis |
| C61 | Whether a run raises does not depend on field values | FDTD | Props_FDTD | step as a result; equivalence by induction on steps |
| C62 | Vacuum layers reflect nothing | Layout, FDTD | Props_Layout | two whole simulations compared step by step; simulation relation |
| C63 | Starting a training run prepares it completely, changes nothing the user set, and a model kept from another kind of run does not fit | Start, Config, Networks, EpsGrid | Props_Start | start of run_training with every exception; composition of the parts |
| C64 | TRCWA results do not depend on the eigensolver's choice of eigenvectors; constant patterns act as uniform layers | TRCWA, Modes | Props_Basis | two eigensolver oracles related by a change of basis carried through the S-matrix; constant patterns reduced to uniform layers |
| C65 | Moving, turning or mirroring a pattern changes neither reflection nor transmission (TRCWA) | TRCWA, Modes | Props_Symmetry | monomial changes of basis (phases and permutations of orders) carried through the calculation; refutation with a witness |
| C66 | Power by diffraction order adds up and obeys selection rules | Queries, TRCWA, Modes | Props_Orders | powers by order; the C65 argument order by order, fixed vectors of diagonal phase matrices; non-negativity per order |
| C67 | What the queries of a solved stack return | Queries, Stack, Modes | Props_Queries | amplitude and permittivity queries; algebra of phases, histories of layer calls, case analysis |
| C68 | Frequency analysis of recorded signals | Fourier | Props_Fourier | integer and real arithmetic of padding and bins; minimality by comparison with every other length |
| C69 | What the plots show | Plots, Materials, EpsGrid, Losses | Props_Plots | plots as lists of points; index arithmetic of flattened grids, case analysis of exceptions |
| C70 | Running the configs of a folder | Batch, Runs, Plots | Props_Batch | loop over configs with outcomes as arguments on the file system of C56; invariant of the batch folder, induction over the configs |
| C71 | Plane sources | Register, FDTD | Props_Plane | index normalisation as integer case analysis; the last write of a step; sources without cells commute with runs |
| C72 | Saved detector readings | Output, Runs, Register, FDTD | Props_Output | sessions of assignments, runs, resets and saves; invariants over histories (detector list and names, records), arrays as association lists; decimal numbers are injective |
| C73 | Pulse shapes | Waveforms, FDTD | Props_Waveforms | real analysis with the standard library: monotonicity of exp, derivatives by composition, t exp((1-t^2)/2) has modulus at most 1 with equality only at 1 and -1 |
| C74 | Soft voltage sources | Soft, Register, FDTD, Steps | Props_Soft | the step with soft sources related to the step of the grid alone; induction over runs for inputs, readings and the feedback of the current |
| C75 | Listing a config | Print, Config | Props_Print | induction over the items with the column counter; the printed text is related item by item to an inductive relation; bars per line by an invariant (bars so far <= idx mod 3) |
| C76 | The picture of a grid shows what is on it, where it is | Visualize, Register, Output, Index, Material | Props_Visualize | the folds that draw the parts are related to maps, each kind of item filtered by its colour; an invariant over clean histories (everything placed); pixel centres against rectangles by integer comparison |
| C77 | Frames of a film are kept apart, complete and in order | Frames (Visualize, Output) | Props_Frames | values of digit strings (strings of equal length compare like their values; no leading zeros bound the length); induction over the frames of a film |
| C78 | Decibel map of a block detector | Detection | Props_Detection | maxima and minima over lists characterised by folds; a relation of the swing at a place to its readings; scaling commutes with both folds |
| C79 | Plots of detected pulses | Detection, Output | Props_Detection | induction over the dictionary; the nested dictionary of arrivals by a lookup function with keys occurring once; names of save_data by induction over its loop |
| C80 | Coherent transfer matrices solve the wave equation of the stack | TMM | Props_TMM | induction over the list of layers: the transfer matrices match the tangential fields at each interface; uniqueness because each matching condition can be solved for the wave on either side; success by the energy argument of C81 (the denominator is the forward amplitude, which carries positive power) |
| C81 | Power balance of the transfer-matrix method | TMM | Props_TMM | the power of a wave in closed form; continuous at interfaces because the tangential fields are; its derivative in a layer is a positive form for passive media; telescoping sums |
| C82 | Fields and absorption at a point of the stack | TMM | Props_TMM | the power in closed form, derived term by term; matching conditions of C80 |
| C83 | Light from the other side of a stack | TMM | Props_TMM | the cross product of the tangential fields of the two waves is the same at all interfaces (Lorentz reciprocity), by induction |
| C84 | Stacks that act alike | TMM | Props_TMM | by the uniqueness of C80: the wave of one stack gives a wave of the other |
| C85 | Polarization in the transfer-matrix method | TMM | Props_TMM | by the uniqueness of C80: exchanging the two tangential fields at normal incidence |
| C86 | Depths in a stack | TMM2 | Props_TMM2 | induction over the layers; the power by continuity at the interfaces (C80) and its sign of slope inside a layer (C81) |
| C87 | The absorption as a function of depth | TMM2 | Props_TMM2 | expansion of the density into the three exponentials the function stores; the integral by the fundamental theorem of calculus |
| C88 | Ellipsometric angles | TMM2 | Props_TMM2 | polar form of a complex number; normal incidence by C85 |
| C89 | Grouping of coherent and incoherent layers | TMM3 | Props_TMM3 | invariant of the loop over the layers: the tables of a pattern given by the lengths of its runs of coherent layers; the tables read off that form |
| C90 | Intensities of the incoherent method | TMM3 | Props_TMM3 | induction over the incoherent layers for the matrices; success by a cone of intensities which every matrix keeps |
| C91 | Energy in the incoherent method | TMM3 | Props_TMM3 | telescoping sum of the power entering the layers; bounds by induction backwards from the last layer, stacks by C81 and reciprocity (C82) |
| C92 | Agreement of the incoherent with the coherent method and with the slab formula | TMM3 | Props_TMM3 | the general balance for two and three incoherent layers; uniqueness of the balance for thicknesses |
| C93 | The two frequency-domain codes agree on uniform layers | Agree | Props_Agree | backward induction over the layers: the wave of the transfer-matrix code (C80) satisfies the film recursion that TRCWA satisfies (C51), whichever square root is the index; success from C51 and C80 |
| C94 | The shipped materials at every frequency | Model_Tables, Model_Materials, Model_Units, Model_Layout | Props_Tables | the data files transcribed as decimal numbers; the chosen row located by comparing the wavelength with the middles of neighbouring rows; facts about all rows by computation in the kernel over exact fractions, lifted to all frequencies; composed with the config and FDTD models |
| C95 | A whole training run: evaluation, solver, losses and loop together | Pipeline, Start, Training, Dispatch, Layout, EpsGrid | Props_Pipeline | the config after an iteration agrees with the started one on everything later iterations read (invariant by induction over the iterations), so the run is the abstract loop; failures and the kept weights from its invariant; validity of the config left behind proved field by field |
| C96 | The tensor functions written for torch agree with linear algebra and say which inputs they refuse | Torch, Register | Props_Torch | tensors as a type, a shape and entries; permutations of dimensions located by their places; sums exchanged and scaled by induction; ceilings of the exact step counts |
| C97 | Which log messages are shown | Logging | Props_Logging | a session as a fold of events; the name filter as a prefix; only the state after the last setting matters |
| C98 | The plot of losses shows the run | LossPlot, Training | Props_LossPlot | the places of a filtered list counted by induction, with the logs of C21 |
| C99 | Rounding does not tear the simulated layers apart | Rounding, Layout | Props_Rounding | the running sums of both borders coincide by induction; relative errors accumulated over sums in any order (induction on the bracketing), turned into absolute ones by Bernoulli, and compared with the floors of C28 |
| C100 | Plane waves travel at the speed of light on the grid | FDTD, Register, Layout | Props_Wave | induction on the steps with the region the ends cannot reach; sums to products; the mean value theorem and the alternating series of the sine for the speed |
| C101 | Light of one frequency in a layered FDTD simulation obeys one balance equation and loses no power | FDTD, Register, Layout | Props_Harmonic | one step of the fields in columns clear of sources and boundaries; power flux from column to column, backward recursion for existence, flux argument for uniqueness |
| C102 | At an interface the simulation reflects and refracts as Fresnel's formulas say, up to the resolution | FDTD, Register, Layout | Props_Harmonic | C101 applied to the two waves that meet half a column before the interface; trigonometric identities and bounds |
| C103 | For layers without loss the FDTD simulation and the transfer-matrix solver agree about reflection and transmission | FDTD, Register, Layout, TMM | Props_Slab | the mean and the half difference of neighbouring amplitudes are continuous across an edge and play the part of the tangential fields; in a layer they split into two waves that gain a fixed phase per column, so the amplitudes form a wave in the slab of the transfer-matrix code, which is unique (C80); bounds from x cos x <= sin x <= x |
| C104 | The transmission and reflection reported for signals that have settled are the squared amplitude ratios, up to the error of the samples | Coeffs, FDTD, Layout, TMM | Props_Steady | the difference of neighbouring samples is a sine, so exactly the samples nearest the crests are peaks; the squares sum to half the count over whole periods; errors are carried through both; the link to the simulation is C29, that to the transfer-matrix code C103 |
| C105 | Which wavelengths the FDTD simulation can tell apart | Register, Layout, Coeffs | Props_Resolution | the wavelength enters the set-up only in the period of the source, which is rounded, and in the conductivities; the set-ups are equal, hence the runs |
| C106 | A lossless simulation can be run backwards, and different fields stay different | FDTD | Props_Reverse | the copies of the periodic faces read off cell by cell; one backward step undoes one step exactly; induction over the steps |
| C107 | The three rows of a simulated stack even out away from the source | FDTD, Register, Layout | Props_Rows | the step of each row in columns clear of sources and absorbing borders; magnetic fields eliminated from two steps; two instants determine a complex amplitude; the difference falls by induction on the distance to the ends |
| C108 | A simulation does not know about a layer before light has been there and back | FDTD, Register, Layout, Coeffs | Props_Causal | the columns between source and right PML stay dark, one column fewer on each side per step, PML memory included; two runs that agree before a layer go on agreeing there while the column before it is dark, then lose one column per step; induction over the steps |
| C109 | A spectrum entry depends on the stack only through the permittivity of each grid column | FDTD, Register, Layout, Coeffs | Props_Cut | in a grid one cell high the field along z and the magnetic field across it evolve without the other components: two grids that agree in these, and in the material only these see, agree after every step, PML memory and sources included; induction over the steps; the columns of a cut stack are compared edge by edge |
| C110 | Only ratios of lengths matter in a time-domain simulation | FDTD, Register, Layout, Coeffs | Props_Scale | columns, source signal and absorption of the enlarged layout computed and compared: factors cancel; then the two grids agree in the components that reach the detectors after every step (as for C109); free space as a stack of vacuum |
| C111 | The two polarizations of a flat grid do not mix | FDTD | Props_Twin | derivatives along the flat axis vanish in a grid one cell thick (along that axis), so each component of the curl reads only the components of its own polarization; the same for the terms of the PML memory; induction over the steps for two grids at once; the dark polarization compared with zero; a PML grid at rest as counterexample |

## What is modelled

| file in /repo/nidn | model | covered |
|---|---|---|
| utils/convert_units.py, utils/global_constants.py, fdtd/conversions.py, fdtd/constants.py | Model_Units | all functions and the constants they use |
| utils/validate_config.py, utils/load_default_cfg.py (the default values) | Model_Config | every check, in order |
| utils/compute_spectrum.py | Model_Dispatch | all |
| trcwa/compute_target_frequencies.py, trcwa/get_frequency_points.py | Model_Units | all |
| trcwa/load_material_data.py, materials/material_collection.py, find_closest_material.py, layer_builder.py | Model_Materials | all but the reading of csv files (rows are arguments) |
| materials/data/*.csv | Model_Tables | all ten files |
| training/model/model_to_eps_grid.py | Model_EpsGrid | all |
| training/model/init_network.py, training/utils/nerf.py, siren.py, voxel.py, abs_layer.py | Model_Networks | construction and forward pass; random draws are arguments |
| training/losses/*.py | Model_Losses | all |
| training/run_training.py | Model_Start, Model_Training, Model_Pipeline | `_init_training`; the loop with evaluation as an oracle; the whole run with grid, solver and losses in place of the oracle and the config threaded through (backward and Adam's step, the noise and the losses of non-finite FDTD coefficients are arguments) |
| training/save_run.py, load_run.py | Model_Runs | all, with a model of the file system |
| fdtd/grid.py, boundaries.py, objects.py, detectors.py, sources.py, waveforms.py | Model_FDTD, Model_Register | constructor, registration, step, run, reset, curls, PML, periodic boundaries, (absorbing) objects, point/line/plane sources, field and current detectors (point, line and block) |
| fdtd/grid.py `save_simulation`, `save_data`, `generate_video` | Model_Output | all, with the file system of Model_Runs; the video tool as an argument |
| fdtd/waveforms.py | Model_FDTD (`hanning`), Model_Waveforms | all |
| fdtd/sources.py `SoftArbitraryPointSource` | Model_Soft | all (soft sources after the others) |
| fdtd/visualization.py `visualize` | Model_Visualize | pixels, items drawn, colour limit, exceptions, frames written (colours, legend and animation left out) |
| fdtd/visualization.py `dB_map_2D`, `plot_detection` | Model_Detection | values drawn and printed, exceptions (titles, labels and what is drawn before an exception left out; scipy's `hilbert` is an argument) |
| utils/print_cfg.py | Model_Print | all (how numbers are written is an argument) |
| fdtd/fourier.py | Model_Fourier | all (the transform only as far as that it raises) |
| plots/plot_losses.py | Model_LossPlot | curves and file (a config without results left out) |
| utils/set_log_level.py, __init__.py | Model_Logging | all but colours and time |
| trcwa/utils/torch_functions.py | Model_Torch | all, with exact entries |
| the other plots/*.py | Model_Plots | curves and markers drawn, exceptions, files written by save_all_plots |
| scripts/run_cfgs.py | Model_Batch | the loop, with the file system of Model_Runs; loading, training and plotting as arguments |
| fdtd/backend.py | Model_Backend, Model_Torch | `set_backend`; `transpose`, `linspace`; the functions passed on to torch are replaced by exact ones |
| fdtd_integration/*.py | Model_Coeffs, Model_Layout | all |
| trcwa/utils/kbloch.py | Model_Lattice | all |
| trcwa/utils/fft_funs.py | Model_TRCWA | `Epsilon_fft`, `get_conv` (`get_fft`, `get_ifft` as far as they raise) |
| trcwa/trcwa.py | Model_Stack, Model_Modes, Model_TRCWA, Model_Queries | layer calls, set-up, modes, S-matrix, exterior and interior amplitudes, translation of amplitudes, flux, RT_Solve total and by order, Return_eps; field, stress and volume queries only as far as that they raise |
| trcwa/init_trcwa.py, compute_spectrum_trcwa.py | Model_TRCWA | all |
| notebooks/tmm_core.py | Model_TMM, Model_TMM2, Model_TMM3 | the coherent method: Snell's law, interfaces, `coh_tmm`, `coh_tmm_reverse`, `unpolarized_RT`, `position_resolved`, `absorp_in_each_layer`, `find_in_structure`, `find_in_structure_with_inf`, `layer_starts`, `absorp_analytic_fn`, `ellips`; the incoherent method: `inc_group_layers`, `inc_tmm`, `inc_absorp_in_each_layer`, `inc_find_absorp_analytic_fn` |

## What is not modelled

* Titles, colours and axes of plots and the other files of notebooks/: output only.
* The arithmetic of tensors (rounding, precision): replaced by exact operations on lists and matrices,
  except in Model_Rounding.v (C99) and C96_line_rounding.
* Gradients, optimizer arithmetic beyond the learning rate, devices, and rounding.
* `fix_random_seeds`: random numbers are arguments, the same argument standing for the same seed.
* Parts of single functions left out are named in the comments of the models (headers of the
  `Model_*.v` files and comments beginning with "Simplification" or "left out").

## Where the code departs from what one would expect

Each item is a consequence of the theorems named (or of the model, where none is named).

* **Validator**: does not check the solver name (an unknown one makes `compute_spectrum` return
  `None`, C53), `encoding_dim`, the sign of `siren_omega`, nor the signs of list entries (C05, C63).
  The default config has no target frequencies until a training starts, so TRCWA raises
  `AssertionError` on it (C53).
* **FDTD engine**: energy conservation needs the fields to vanish on walls or to match on periodic
  faces (C31); negative Courant numbers of any size are accepted (C31); a 1x1x1 grid cannot be
  constructed; `reset` clears neither PML memory nor detectors (C35); current detectors count one
  part of the first circulation twice (C36); a rejected component stays in the lists, and a rejected
  periodic boundary acts (C37, C38); a PML adds a constant of 1e-16 per step and does not cover the
  last magnetic plane on the high side (C39, C40); replacing an absorbing object by a plain one
  keeps the absorption (C41); negative distances are shifted by one cell, open block detectors make
  every step raise (C42); point sources with Ricker pulses raise (C43).
* **FDTD layout**: thin layers can vanish without a message; the announced thickness is that of a
  layer in first place (C59); the transmission detector can lie inside the absorbing border; a PML
  under one cell makes the set-up raise; a grid slice whose real permittivities are all negative
  makes `compute_spectrum_fdtd` raise `ValueError`; in the last row, components of the inverse
  permittivity normal to the axis keep the vacuum value (C28, C29).
* **FDTD spectra**: light is sent with a period of a whole number of time steps, so wavelengths closer
  than about 0.7 cells can share one spectrum entry (C105); an oscillation whose crest falls exactly
  between two samples has no peak and its power comes out too small (C104).
* **Placing components**: a number -1 does not mean the last layer: a plane source there is accepted and
  silent, an object refused or without effect (C42, C71); plane sources with a polarization of no or
  several letters can be polarized along the normal, and a slice with a negative start makes every
  step raise (C71); an absorbing object can be refused after its permittivity was written (C37).
* **Shipped data**: aluminium oxide has negative absorption at wavelengths up to 0.285 and between
  27.4024 and 29.8574 micrometres, and an absorption above the default limit of the grid in three
  bands; six of the ten files do not cover the default range of wavelengths and are continued as
  constants (C94).
* **Training**: after a renormalised history the model returned need not be the one with the
  lowest logged loss (C22); starting anew keeps a model of a different kind (C63); NERF with 3 or 4
  hidden layers never works (C54); saving with a slash in the name can collide or raise, and a save
  cut short destroys the earlier file of the same second (C56).
* **Analysis and output**: asking the frequency analysis for a resolution gives a negative padding and
  every transform after a step raises (C68); the model grid plot shows the absolute value of the mean,
  which can cancel, and the epsilon grid a norm that grows with the number of frequencies (C69);
  saving all plots raises for fewer than four frequencies and so ends a batch of runs (C69, C70);
  a refused detector whose name was taken makes `save_data` store empty arrays for the one that has
  the name, simulations can share a folder around a full hour, and a failing ffmpeg leaves the
  working directory inside the folder (C72); a config with results cannot be listed (C75); in
  pictures across y point sources are put at a wrong column, and plane sources seen from their edge
  have no pixel (C76); beyond 9999 frames the order of names is not that of time (C77); a map of
  readings with one place that never varied has no numbers (C78); readings of block detectors make
  the plot of pulses fail if they come last (C79).
* **Transfer matrices** (notebooks/tmm_core.py): the imaginary phase of a layer is cut at 35, so the
  result for an opaque layer is that of a thinner one (C80, C93); with absorbing incoherent layers the
  powers can add up to more than came in (C91); `inc_find_absorp_analytic_fn` raises for every layer
  (C92).
* **Soft sources**: a soft source cannot be given a name, and one placed after the first step makes
  the next step raise (C74).
* **Logging**: a level that does not exist silences all messages, errors included; importing nidn removes
  the handlers of the program that imports it and shows no messages of other modules (C97).
* **TRCWA**: circular truncation never returns as many orders as asked for (five on a square
  lattice give one, one gives none), parallelogram truncation always raises (C45); grids with Nx = 3
  always fail, grids with Nx = 1 < Ny fail with several layers or Ny = 3 (C52); permittivity matrix
  entries with both parts below 1e-14 are zeroed even if large and negative, so constant patterns of
  real negative permittivity become zero and moving a pattern can change the result (C48, C64, C65);
  reflection combines the incident amplitude at the front with the outgoing one at the back of the
  top layer, so all powers carry a factor exp(-2 sqrt(eps_top) Im omega) and R + T = 1 never holds
  exactly in `compute_spectrum`, where omega is always complex (C51); amplitudes inside interior layers, fields, stress
  and volume integrals always raise, and the stored permittivity of a patterned layer cannot be read back (C67).

## Trusted base

* Coq 8.16.1's kernel and standard library (`Reals`, logic axioms below), and mathcomp 1.x, which
  adds no axioms.
* The transcription of the Python code into the `Model_*.v` files, within the idealisations above.
* The statements in `Props_*.v` and the definitions in `Spec_*.v` they use.

No axioms are declared in `rocq/theories`; no kernel check is switched off; there are no admitted
proofs, functors or module types.

## What `Print Assumptions` lists for each theorem

All of these are axioms of Coq's standard library:

* **R1** `ClassicalDedekindReals.sig_forall_dec`
* **R2** `ClassicalDedekindReals.sig_not_dec`
* **F** `FunctionalExtensionality.functional_extensionality_dep`
* **C** `Classical_Prop.classic`
* **E** `ClassicalEpsilon.constructive_indefinite_description`

Theorems by the axioms they rest on:

* **none** (closed under the global context) (65): `C09_no_frequencies`, `C14_every_block`, `C18_empty`, `C25_window_zero_raises`, `C42_block_includes_stop`, `C42_index_kept`, `C42_line_negative_start`, `C42_line_visits_each_y_once`, `C47_bookkeeping`, `C47_pattern_numbers`, `C56_file_name`, `C56_kept`, `C56_replaced`, `C56_round_trip`, `C56_same_file`, `C56_slash_refuted`, `C56_succeeds`, `C58_accepts`, `C58_any_attribute`, `C58_cpu`, `C58_documented`, `C58_half_changed`, `C58_last`, `C58_no_gpu`, `C58_no_nameerror`, `C58_unchanged`, `C58_unchanged_refuted`, `C58_unknown_type`, `C67_return_eps`, `C70_complete`, `C70_elsewhere`, `C70_ends`, `C70_plots`, `C70_saved`, `C70_stops`, `C71_polarizations`, `C72_distinct_refuted`, `C72_folder`, `C72_inside_refuted`, `C72_no_folder`, `C72_place`, `C72_refused`, `C72_same_place`, `C72_stored`, `C72_video`, `C72_video_fails`, `C75_complete`, `C75_lines`, `C75_raises`, `C75_shown_before`, `C77_distinct`, `C77_distinct_none`, `C77_name`, `C77_order`, `C77_order_refuted`, `C79_no_dictionary`, `C92_absorption_function_refuted`, `C96_backend_axes`, `C96_backend_default`, `C96_transpose`, `C96_transpose_twice`, `C97_import`, `C97_last_setting`, `C97_refused`, `C97_shown`
* **R1** (3): `C86_starts_refused`, `C95_grid`, `C96_type`
* **R1** + **F** (193): `C01_freq_to_wl_decreasing`, `C01_freq_wl_roundtrip`, `C01_phys_freq_decreasing`, `C01_phys_freq_roundtrip`, `C01_phys_wl_roundtrip`, `C02_accepted_keys`, `C02_keyerror`, `C03_accepted_types`, `C03_typeerror`, `C04_accepted_ranges`, `C04_complete`, `C04_complete_fdtd`, `C04_wavelengths_positive_refuted`, `C05_nonnegative_spectrum_refuted`, `C05_positive_thickness_refuted`, `C05_spectrum_unchecked`, `C05_thickness_sign_blind`, `C05_zero_rejected`, `C08_all_frequencies`, `C08_nearest_row`, `C08_total`, `C09_all_skipped`, `C09_lookup`, `C09_single_both`, `C09_single_frequency`, `C09_single_material`, `C09_unknown_name`, `C104_error`, `C11_circle`, `C11_circle_mirror`, `C11_shape`, `C11_square`, `C11_square_mirror_x`, `C11_square_mirror_y`, `C11_square_single_column`, `C11_square_size_antitone`, `C11_uniform`, `C12_avoid_zero_grid`, `C12_avoid_zero_value`, `C12_noise_refuted`, `C12_regression_away_from_zero`, `C12_voxel_refuted`, `C13_imag_max_reached_refuted`, `C13_imag_upper`, `C13_noise`, `C13_real_affine`, `C13_regression_range`, `C14_bad_output_count`, `C14_bad_oversampling`, `C14_blocks`, `C14_shape`, `C15_channels`, `C15_documented_layout_refuted`, `C15_single_frequency`, `C16_equal_thickness`, `C16_inputs`, `C16_layers`, `C16_log_range`, `C19_pair`, `C20_use_max`, `C21_logs`, `C21_window_mean`, `C22_best_unphysical_refuted`, `C22_returned_best`, `C22_returned_general`, `C22_returned_live`, `C23_error_iteration`, `C23_learning_rate`, `C23_other_exceptions_propagate`, `C24_nan_passes`, `C24_normalise`, `C24_unphysical_returned_refuted`, `C25_cut_position`, `C25_outcome`, `C25_short`, `C25_steady_state_error_unreachable`, `C25_two_windows_raise`, `C26_peaks`, `C27_dark_free_space`, `C27_identical_signals_refuted`, `C27_identity`, `C27_nonnegative`, `C27_power_between_peaks`, `C27_power_few_peaks`, `C27_quadratic_in_amplitude`, `C27_result`, `C27_scale_invariant`, `C28_positions`, `C30_curls_adjoint`, `C35_reset`, `C36_current_mean_refuted`, `C36_current_value`, `C42_distance_nearest`, `C42_negative_distance_shifted`, `C44_dependent_raises`, `C44_dual`, `C44_independent`, `C44_involution`, `C44_unique`, `C46_root_unique`, `C55_between`, `C55_linear`, `C55_mean`, `C59_announced_as_if_first`, `C59_announced_is_actual_refuted`, `C59_within_one_gridpoint`, `C68_band_raises`, `C68_frequencies`, `C68_no_bins`, `C68_padding_band`, `C68_padding_default`, `C68_padding_raises`, `C68_real_part_refuted`, `C68_resolution_refuted`, `C68_transform_raises`, `C69_per_frequency`, `C69_per_frequency_iff`, `C74_reset`, `C75_after_training_refuted`, `C75_default`, `C76_detectors`, `C76_draws`, `C76_edge_refuted`, `C76_image`, `C76_lines`, `C76_markers`, `C76_negative_refuted`, `C76_objects`, `C76_periodic`, `C76_planes`, `C76_pml`, `C76_refused`, `C76_scale`, `C76_zx_refuted`, `C77_no_folder`, `C77_refused`, `C77_saved`, `C79_arrivals`, `C79_block_refuted`, `C79_curves`, `C79_drawn_all`, `C79_drawn_one`, `C79_empty`, `C79_saved`, `C79_unread_refuted`, `C86_find`, `C86_find_in_front`, `C86_find_with_inf`, `C86_found`, `C86_infinite_refused`, `C86_starts`, `C87_add_ok`, `C89_accepts`, `C89_around_stack`, `C89_incoherent`, `C89_incoherent_inverse`, `C89_refuses`, `C89_stack_before`, `C89_stack_inverse`, `C89_stack_layers`, `C89_stacks`, `C89_stacks_in_order`, `C94_beyond`, `C94_bounds`, `C94_collection`, `C94_default_limit_refuted`, `C94_default_range`, `C94_dielectric`, `C94_germanium_lossless`, `C94_increasing`, `C94_names`, `C94_negative_bands`, `C94_not_zeroed`, `C94_passive`, `C94_passive_refuted`, `C94_row_serves`, `C94_rows`, `C96_accepted`, `C96_associative`, `C96_created`, `C96_eye_neutral`, `C96_line_cells`, `C96_line_rounding`, `C96_linspace`, `C96_linspace_few`, `C96_matrix_matrix`, `C96_matrix_vector`, `C96_transposed_product`, `C96_vector_vector`, `C98_curves`, `C99_adjacent`, `C99_layout`, `C99_ordered`
* **R1** + **R2** + **F** (250): `C08_modulus`, `C100_plane_wave`, `C101_bounds`, `C101_oscillation`, `C101_power_balance`, `C101_scattered_exists`, `C101_scattered_unique`, `C101_settled_is_balanced`, `C101_simulation`, `C101_time_step`, `C102_fresnel`, `C102_indices`, `C102_interface`, `C102_power`, `C103_simulation`, `C104_coefficients`, `C104_column`, `C104_difference`, `C104_exact`, `C104_flat_crest`, `C104_power`, `C104_recorded`, `C104_robust`, `C105_apart`, `C105_every_wavelength`, `C105_same_entry`, `C105_same_entry_lossless`, `C105_same_simulation`, `C105_shift`, `C106_distinct`, `C106_forgets`, `C106_run_back`, `C106_run_back_exists`, `C106_tidy_stays`, `C107_evens_out`, `C107_mean_balanced`, `C107_recorded`, `C107_rows_agree`, `C107_simulation`, `C107_wave_equation`, `C108_nothing_reflected`, `C108_still_dark`, `C108_too_short`, `C108_unaware`, `C109_cut`, `C109_entry`, `C109_longer`, `C109_resolution`, `C109_signals`, `C109_spectrum`, `C10_distance_zero`, `C10_exact_match`, `C10_minimiser`, `C110_entry`, `C110_signals`, `C111_dark`, `C111_dark_pml_refuted`, `C111_detectors`, `C111_polarizations`, `C16_dispatch`, `C17_single_frequency_defect`, `C17_softmax`, `C28_detector_before_pml_refuted`, `C28_free_space`, `C28_layers`, `C28_missing_thickness`, `C28_thin_pml_raises`, `C29_empty_slice_raises`, `C29_entry_value`, `C29_negative_permittivity_raises`, `C29_point_source_rows_raise`, `C29_signals`, `C30_curl_bound`, `C31_accepted_courant`, `C31_bounded_for_ever`, `C31_default_courant`, `C31_energy_balance`, `C31_energy_conserved`, `C31_energy_without_wall_condition_refuted`, `C31_every_cell_bounded`, `C31_interior_sources_keep_cavity_closed`, `C31_negative_courant_accepted`, `C31_pulsed_cavity_bounded`, `C32_sum_with_pml_refuted`, `C32_superposition`, `C33_far_detectors`, `C33_one_cell`, `C33_plane_or_source`, `C34_divergence_constant`, `C35_nonpositive_runs_do_nothing`, `C35_reset_reproduces`, `C35_run_counts`, `C35_run_seconds`, `C35_run_splits`, `C36_current_records`, `C36_field_records`, `C37_fresh_names`, `C37_member_names_refused`, `C37_names_unique`, `C37_registered`, `C37_rejected_absorbing_refuted`, `C37_rejected_blocks_every_step`, `C37_rejected_object_harmless`, `C37_taken_name_refused`, `C38_faces_equal`, `C38_one_boundary_per_face`, `C38_periodic_placed`, `C38_second_periodic_raises_but_acts`, `C38_second_pml_raises`, `C39_convolution`, `C39_memory_bounded`, `C39_placed_empty`, `C40_pml_adds_constant`, `C40_silence`, `C41_absorbing_damps`, `C41_objects_keep_passive`, `C41_plain_object_keeps_absorption`, `C41_zero_conductivity`, `C42_absorbing_single_index`, `C42_object_acts_on_slices`, `C42_object_last_index`, `C42_object_single_index`, `C42_object_step_refused`, `C42_open_block_blocks`, `C42_pml_refused`, `C43_continuous_periodic`, `C43_continuous_point`, `C43_hanning_end`, `C43_hanning_over`, `C43_line_emits`, `C43_line_source_across`, `C43_point_emits`, `C43_profile_positive`, `C43_profile_sum`, `C43_profile_symmetric`, `C43_ricker_point_raises`, `C45_nonpositive_raises`, `C45_other_arguments_raise`, `C46_wave_vectors`, `C54_fails`, `C54_nerf`, `C54_nerf_built`, `C54_nerf_four`, `C54_nerf_input`, `C54_nerf_three`, `C54_nerf_value`, `C54_regression`, `C54_rows`, `C54_siren`, `C54_siren_input`, `C54_siren_omega`, `C54_siren_value`, `C54_siren_weights`, `C54_three`, `C54_unknown`, `C54_voxel`, `C54_voxel_classification`, `C57_sim_world_E`, `C57_sim_world_H`, `C57_sim_world_linear`, `C60_domain_border`, `C60_too_small`, `C60_zero_border`, `C61_when_a_run_raises`, `C62_vacuum_no_reflection`, `C62_vacuum_simulation_is_free_space`, `C69_epsilon_grid`, `C69_material_grid`, `C69_model_grid`, `C69_model_grid_absolute_refuted`, `C69_points`, `C69_points_one_frequency_raises`, `C71_accepted_iff`, `C71_fields_are_signal`, `C71_negative_start_raises`, `C71_polarization_check_refuted`, `C71_refused_with`, `C71_silent_placement`, `C71_whole_plane`, `C72_refused_twin_refuted`, `C72_samples`, `C72_survive`, `C73_point_bound`, `C74_emits`, `C74_history`, `C74_inputs`, `C74_late`, `C74_named`, `C74_named_cell`, `C74_not_a_cell`, `C74_orphan`, `C74_placed`, `C74_quiet`, `C74_reset_inputs`, `C74_unplaced`, `C74_voltages`, `C74_works`, `C76_after_history`, `C76_block`, `C76_object_where`, `C77_film`, `C77_video`, `C80_doubled_last_refused`, `C80_interface`, `C80_needs`, `C80_returns_inputs`, `C80_slab`, `C80_snell`, `C80_solves`, `C80_unique`, `C81_accounts`, `C81_powers`, `C82_absorption_is_derivative`, `C82_absorption_sign`, `C82_continuous`, `C82_domain`, `C82_ends`, `C82_fields`, `C83_reciprocity`, `C83_same_T`, `C84_cut_layer`, `C84_half_waves`, `C84_no_thickness`, `C84_scaling`, `C85_normal_incidence`, `C85_unpolarized`, `C86_evaluates`, `C87_add`, `C87_agrees`, `C87_exists`, `C87_first`, `C87_flip`, `C87_flip_ok`, `C87_flip_twice`, `C87_from_the_end`, `C87_scale`, `C90_balance`, `C90_crossings`, `C90_layers`, `C90_unique`, `C91_accounts`, `C91_conserved`, `C91_entries`, `C91_no_gain`, `C92_coherent`, `C92_slab`, `C92_thickness`, `C94_fdtd_raises`, `C94_modulus`, `C99_exact`
* **R1** + **F** + **C** + **E** (5): `C50_by_order`, `C50_one_way`, `C50_orders_sum`, `C50_scaled`, `C50_total`
* **R1** + **R2** + **F** + **C** (100): `C06_linear_spacing`, `C06_log_ratio`, `C06_target_frequencies`, `C06_unknown_distribution`, `C07_frequency_points`, `C100_speed`, `C100_ten_cells`, `C102_fresnel_ten`, `C103_agrees`, `C103_index`, `C103_phase`, `C103_settled`, `C103_thickness`, `C103_wavelength`, `C104_kept`, `C104_transfer_matrix`, `C105_same_entries`, `C107_ten_columns`, `C17_weights_and_mixture`, `C18_distance`, `C18_length_mismatch_refuted`, `C18_triangle_L1`, `C18_value`, `C19_flag`, `C19_sum_one_refuted`, `C20_regularisation`, `C28_valid_config_proper`, `C29_config_and_second_call`, `C29_entries`, `C29_first_error`, `C29_returned_iff`, `C35_reset_with_pml_refuted`, `C39_factors`, `C39_high_side_hole`, `C39_outward_electric`, `C39_outward_magnetic`, `C39_placed_dissipative`, `C43_profile_decreases`, `C43_signal_bounded`, `C45_complete_shells`, `C45_five_on_square`, `C45_maximal`, `C45_selected`, `C45_single_order`, `C45_symmetric`, `C46_root_decays`, `C53_frequencies`, `C62_vacuum_spectrum`, `C63_classification`, `C63_encoding`, `C63_frequencies`, `C63_invalid`, `C63_model`, `C63_omega`, `C63_outputs`, `C63_regression`, `C63_restart`, `C63_stale_model`, `C63_starts`, `C63_user`, `C63_voxel`, `C69_all_plots`, `C69_spectra`, `C69_spectrum`, `C69_spectrum_lengths`, `C69_spectrum_no_targets`, `C70_few_frequencies`, `C73_derivative`, `C73_derivative_odd`, `C73_derivative_peaks`, `C73_derivative_raises`, `C73_gaussian_falls`, `C73_gaussian_peak`, `C73_gaussian_raises`, `C73_gaussian_symmetric`, `C73_gaussian_width`, `C73_line_bound`, `C73_ricker`, `C78_drawn`, `C78_invariant`, `C78_map`, `C78_order`, `C78_peaks`, `C78_refused`, `C80_succeeds`, `C81_lossless`, `C81_passive`, `C83_same_R`, `C85_unpolarized_bounds`, `C86_power_falls`, `C87_integral`, `C88_angles`, `C88_exists`, `C88_normal_incidence`, `C88_unique`, `C90_succeeds`, `C91_absorption`, `C91_lossless`, `C91_transparent`, `C94_gain_in_configs`
* **R1** + **R2** + **F** + **C** + **E** (82): `C46_patterned_eigen`, `C46_uniform_eigen`, `C46_uniform_modes`, `C48_constant`, `C48_defined`, `C48_diagonal`, `C48_entry`, `C48_epsilon`, `C48_epsilon_constant`, `C48_epsilon_not_hermitian`, `C48_hermitian`, `C48_linear`, `C48_shift_invariant`, `C49_exists`, `C49_exterior`, `C49_maps`, `C49_merge`, `C49_reversed`, `C49_trivial`, `C49_unique`, `C51_airy`, `C51_energy`, `C51_films`, `C51_fresnel`, `C51_lossless`, `C51_lossless_solves`, `C51_patterned_total`, `C51_same_stack`, `C51_setup`, `C51_solves`, `C51_uniform_total`, `C51_vacuum`, `C52_object`, `C53_entries`, `C53_fdtd`, `C53_first_error`, `C53_invalid`, `C53_local`, `C53_nan`, `C53_none`, `C53_shapes`, `C53_trcwa`, `C53_unknown`, `C53_valid`, `C64_constant`, `C64_constant_spectrum`, `C64_eigenvectors`, `C64_spectrum`, `C65_spectrum`, `C65_symmetric`, `C65_threshold_refuted`, `C66_bounded`, `C66_nonnegative`, `C66_selection`, `C66_stripes_along_x`, `C66_stripes_along_y`, `C66_sums`, `C66_supercell_x`, `C66_supercell_y`, `C66_symmetric`, `C66_uniform`, `C67_decay`, `C67_fields_raise`, `C67_incident`, `C67_moves`, `C67_solution`, `C67_which_layers`, `C80_doubled_last_refuted`, `C91_absorbing_refuted`, `C93_films`, `C93_real`, `C93_spectrum`, `C93_total`, `C95_best`, `C95_composition`, `C95_continue`, `C95_failures`, `C95_loss`, `C95_negative_range`, `C95_resume`, `C95_trcwa_logs`, `C95_unknown_solver`
