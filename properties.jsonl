{"id": "C01", "title": "Unit conversions are mutually inverse", "statement": "Converting a non-zero normalised frequency to a wavelength and back with freq_to_wl, a physical wavelength to a normalised one and back with phys_wl_to_wl/wl_to_phys_wl, or a physical frequency to a physical wavelength and back with phys_freq_to_phys_wl, returns the original value (exact arithmetic); freq_to_wl is strictly decreasing on positive values, so ordering of a spectrum is reversed, never scrambled.", "quantifier": "every non-zero real frequency or wavelength", "why_tests_cant": "real-valued domain; tests sample a handful of wavelengths", "anchors": ["nidn/utils/convert_units.py: freq_to_wl, phys_wl_to_wl, wl_to_phys_wl, phys_freq_to_phys_wl"]}
{"id": "C02", "title": "A config that passes validation has exactly the known keys", "statement": "If _validate_config returns normally then every one of the 45 required keys is present and every present key is one of the required or run-time optional keys; if a required key is missing, or an unknown key is present, a KeyError is raised before any type or range check.", "quantifier": "every config, i.e. every finite map from strings to Python values", "why_tests_cant": "the set of configs is infinite; a test can only delete or add a few chosen keys", "anchors": ["nidn/utils/validate_config.py: _validate_config, _check_for_keys"]}
{"id": "C03", "title": "A config that passes validation is well typed", "statement": "If _validate_config returns normally, every integer/float/boolean/string/list key holds a value of that Python type (bool counts as int; an int is never accepted for a float key); a wrongly typed value raises TypeError before any range check.", "quantifier": "every config whose keys are complete", "why_tests_cant": "type confusion depends on the combination of all entries, tests try one key at a time", "anchors": ["nidn/utils/validate_config.py: _check_entry_types"]}
{"id": "C04", "title": "A config that passes validation satisfies the documented value ranges", "statement": "If _validate_config returns normally: real_min_eps<=real_max_eps, imag_min_eps<=imag_max_eps, wavelength range strictly increasing, the reflection detector fits in the free space before the object, the seventeen positive keys are >0, Nx and Ny are multiples of eps_oversampling, type/freq_distribution/source/pulse are from their closed lists, the lattice vectors are ordered, PER_LAYER_THICKNESS has length 1 or N_layers and the source position has length 2 or 3. Conversely a well-typed config satisfying these (and having no zero in its positive-list entries) is accepted.", "quantifier": "every config, including NaN and infinite float entries", "why_tests_cant": "soundness and completeness of a validator range over all configs", "anchors": ["nidn/utils/validate_config.py: _check_value_ranges"]}
{"id": "C05", "title": "Positivity of list entries is (not) enforced", "statement": "The validator documents that all elements of PER_LAYER_THICKNESS and FDTD_source_position must be positive and target spectra non-negative; what it enforces is exactly that no element of the positive lists is zero: negative thicknesses and negative target spectra are accepted.", "quantifier": "every list value in a config", "why_tests_cant": "the deviation is only visible when the acceptance condition is characterised for all lists", "anchors": ["nidn/utils/validate_config.py: _check_value_ranges lines 155-173"]}
{"id": "C06", "title": "Target frequencies: count, bounds, order", "statement": "For 0 < min_wl < max_wl and N_freq >= 1, compute_target_frequencies returns exactly N_freq values, strictly increasing, all between 1/max_wl and 1/min_wl (in unit magnitudes), starting at 1/max_wl and (N_freq >= 2) ending at 1/min_wl, equally spaced for 'linear' and with constant ratio for 'log'; any other distribution raises ValueError.", "quantifier": "every wavelength range, every N_freq, both distributions", "why_tests_cant": "unbounded N_freq and continuous ranges", "anchors": ["nidn/trcwa/compute_target_frequencies.py: compute_target_frequencies"]}
{"id": "C07", "title": "Frequency points pair up physical wavelengths and frequencies", "statement": "get_frequency_points returns two sequences of length N_freq whose i-th entries satisfy wl_i = UNIT_MAGNITUDE / f_i; the wavelengths are strictly decreasing (so a spectrum indexed by target frequency runs from high to low wavelength), lie inside physical_wavelength_range, and the frequencies are stored in the config unchanged.", "quantifier": "every valid wavelength range and N_freq", "why_tests_cant": "ordering claims over all N_freq; the default config's comment states the opposite order", "anchors": ["nidn/trcwa/get_frequency_points.py: get_frequency_points", "nidn/utils/resources/default_config.toml lines 56-58"]}
{"id": "C08", "title": "Material permittivity is taken from the nearest tabulated wavelength", "statement": "For each target frequency f the material's permittivity is (n+ik)^2 of a table row whose wavelength minimises |wl - 1/f| (the first such row), so |eps| = n^2+k^2 and no other row is strictly closer.", "quantifier": "every table of (wavelength,n,k) rows and every frequency", "why_tests_cant": "nearest-row lookup must hold for every table and frequency", "anchors": ["nidn/materials/material_collection.py: _load_material_data", "nidn/trcwa/load_material_data.py"]}
{"id": "C09", "title": "Material lookup by name", "statement": "With at least two materials and at least two target frequencies, indexing a MaterialCollection by a loaded material's name returns that material's N_freq permittivities; a name that was not loaded or was skipped raises KeyError. With exactly one material loaded (to_skip) the lookup returns a single frequency's value, and with exactly one frequency the matrix loses its frequency axis.", "quantifier": "every set of material tables, every skip list and frequency list", "why_tests_cant": "shape collapse depends on sizes being exactly one", "anchors": ["nidn/materials/material_collection.py: MaterialCollection.__init__, __getitem__, _load_materials_folder"]}
{"id": "C10", "title": "Closest material is a true minimiser", "statement": "_find_closest_material returns for every grid cell the first material index minimising the frequency-averaged |eps - eps_material|, together with that minimum; a cell filled with a collection material gets distance 0 and a material with identical permittivities.", "quantifier": "every permittivity grid and material collection", "why_tests_cant": "argmin optimality over all grids", "anchors": ["nidn/materials/find_closest_material.py: _find_closest_material"]}
{"id": "C11", "title": "Layer builder geometry", "statement": "build_uniform_layer fills every cell with the grid material; build_squared_layer puts the hole material exactly at cells strictly inside (a,1-a)^2 and build_circle_layer exactly at cells strictly inside the circle, for all frequencies at once; the square layer is symmetric under both mirror reflections, and a circle centred at 0.5 too.", "quantifier": "every Nx, Ny, material pair, a, radius and centre", "why_tests_cant": "geometric predicate over every grid size", "anchors": ["nidn/materials/layer_builder.py: LayerBuilder"]}
{"id": "C12", "title": "avoid_zero_eps keeps permittivity away from zero", "statement": "After _avoid_zero_eps every real part has magnitude >= cutoff, values already outside (-cutoff,cutoff) and all imaginary parts are unchanged, the sign is kept (zero becomes +cutoff), no entry moves by more than cutoff, and the operation is idempotent.", "quantifier": "every permittivity tensor and every positive cutoff", "why_tests_cant": "real-valued inputs, boundary cases at +-cutoff and 0", "anchors": ["nidn/training/model/model_to_eps_grid.py: _avoid_zero_eps"]}
{"id": "C13", "title": "Permittivity range of a regression model", "statement": "Whatever the network outputs, without avoid_zero_eps every real part of the grid lies in [real_min_eps, real_max_eps] and every imaginary part in [imag_min_eps, imag_max_eps], also after noise; with avoid_zero_eps (and no noise) the real part is in range or is +-cutoff. If the network output is in [0,1], real parts in range are reached affinely, but imaginary values above max(imag_min, imag_max-imag_min) are unreachable. Noise moves each real part by its own draw relative to the real range and each imaginary part by its own draw relative to the imaginary range.", "quantifier": "every network output, every noise draw, every admissible range", "why_tests_cant": "must hold for every network weight and random draw", "anchors": ["nidn/training/model/model_to_eps_grid.py: _regression_model_to_eps_grid"]}
{"id": "C14", "title": "Oversampling produces constant blocks of the right shape", "statement": "The permittivity grid of a network model has shape Nx x Ny x N_layers x N_freq and cell (x,y) equals the undersampled cell (x / oversampling, y / oversampling): all cells of one oversampling block are equal and every block is represented.", "quantifier": "every Nx, Ny, oversampling dividing them, every network output", "why_tests_cant": "index arithmetic over all sizes", "anchors": ["nidn/training/model/model_to_eps_grid.py: _regression_model_to_eps_grid, _classification_model_to_eps_grid"]}
{"id": "C15", "title": "Regression channels: which network output feeds which frequency", "statement": "The regression grid's real part at frequency f is computed from network output component f mod 2 at frequency index f/2 and the imaginary part from the component (N_freq+f) mod 2 at frequency (N_freq+f)/2, so for N_freq >= 2 the two outputs of the network at a frequency are not the real and imaginary part at that frequency, contrary to the documentation of the model.", "quantifier": "every network output and N_freq", "why_tests_cant": "layout of a reshape must be traced for all indices", "anchors": ["nidn/training/model/model_to_eps_grid.py lines 163-200"]}
{"id": "C16", "title": "Sampling coordinates of the model", "statement": "The layer coordinates fed to the network run from -1000 to 1000, strictly increasing for positive thicknesses with one coordinate per layer, equal thicknesses give the same coordinates as a single-entry thickness list (for more than one layer), and the network is evaluated exactly once per (x,y,layer,frequency) in row-major order.", "quantifier": "every thickness list of positive values, every grid size", "why_tests_cant": "real-valued thickness lists of any length", "anchors": ["nidn/training/model/model_to_eps_grid.py: _get_transformed_grid, _eval_model"]}
{"id": "C17", "title": "Classification weights form a probability distribution and eps is their mixture", "statement": "For a classification model each cell's material weights are strictly positive and sum to 1, a material with larger averaged network output never gets a smaller weight, and before avoid_zero_eps the permittivity is the weighted mean of the material permittivities, so its real and imaginary part stay between the materials' minimum and maximum.", "quantifier": "every network output, noise draw and material set", "why_tests_cant": "real-valued softmax over all inputs", "anchors": ["nidn/training/model/model_to_eps_grid.py: _classification_model_to_eps_grid"]}
{"id": "C18", "title": "Spectrum loss is a distance", "statement": "For equally long spectra without renormalisation the loss is >= 0, is 0 exactly when produced and target spectra agree, and the renormalised flag is False; exchanging produced and target does not change it when neither is renormalised; adding absorption keeps these facts.", "quantifier": "every pair of spectra of equal length, every positive exponent", "why_tests_cant": "metric-like laws over all real spectra", "anchors": ["nidn/training/losses/spectrum_loss.py: _spectrum_loss_fn"]}
{"id": "C19", "title": "Renormalisation inside the loss", "statement": "A point with R+T>1 is flagged as renormalised, and its R becomes R/(R+T); its T however is divided by R/(R+T)+T, so the renormalised pair sums to 1 only when R = 0 or T = 0 and is above 1 otherwise: the comment 'renormalize them to 1' is not met.", "quantifier": "every pair of non-negative reals with sum above 1", "why_tests_cant": "sequential assignment bug visible only by comparing with the intended formula for all pairs", "anchors": ["nidn/training/losses/spectrum_loss.py lines 44-52"]}
{"id": "C20", "title": "Likelihood regularisation loss", "statement": "For weights in [0,1] the regularisation loss is between 0 and 2^-L (mean of min(p^L,(1-p)^L)) and is 0 exactly when every weight is 0 or 1; with use_max it is 0 exactly when every cell has a weight equal to 1.", "quantifier": "every weight tensor in [0,1] and exponent L > 0", "why_tests_cant": "real-valued tensors of every size", "anchors": ["nidn/training/losses/likelihood_regularization_loss.py"]}
{"id": "C21", "title": "Training logs have one entry per successful iteration", "statement": "After run_training the loss, L1 and weighted-average logs have equal length, iterations minus the number of iterations whose spectrum computation raised ValueError; entry i of the weighted-average log is the mean of the last min(20,i+1) losses, and the loss log is the sequence of losses in order.", "quantifier": "every number of iterations and every outcome sequence (loss values, ValueErrors)", "why_tests_cant": "history quantifier: any interleaving of successes and ValueErrors", "anchors": ["nidn/training/run_training.py: run_training"]}
{"id": "C22", "title": "Training returns the best model seen", "statement": "Unless some iteration was renormalised, the weights loaded at the end of run_training are a copy of the weights that produced the smallest loss of the run (first minimum) provided at least one iteration succeeded; if renormalised iterations occur, this fails: a renormalised iteration lowers the threshold without saving the state.", "quantifier": "every history of losses, renormalisation flags and ValueErrors", "why_tests_cant": "depends on the whole history", "anchors": ["nidn/training/run_training.py lines 96-98, 156-165, 195-199"]}
{"id": "C23", "title": "Learning-rate schedule under errors", "statement": "During run_training the learning rate is initial * 0.5^(number of ValueErrors so far) as long as the plateau scheduler has not reduced it, it never increases, a ValueError iteration leaves the logs and best loss unchanged and makes the current weights equal to the stored best weights.", "quantifier": "every history of iterations", "why_tests_cant": "history quantifier", "anchors": ["nidn/training/run_training.py lines 109-123"]}
{"id": "C24", "title": "Reflection/transmission normalisation", "statement": "calculate_transmission_reflection_coefficients returns unchanged coefficients if their sum is <= 1 or >= 1.05 and otherwise coefficients scaled to sum to exactly 1 with their ratio preserved; so with non-negative inputs whose sum is below 1.05 the result sums to at most 1, while sums of 1.05 and above are returned as they are (only logged).", "quantifier": "every pair of real coefficients", "why_tests_cant": "boundary cases 1, 1.01, 1.05 over the reals", "anchors": ["nidn/fdtd_integration/calculate_transmission_reflection_coefficients.py: _check_and_normalize_coefficients"]}
{"id": "C25", "title": "Transient elimination returns a suffix", "statement": "_eliminate_transient_part either raises or returns a suffix of its input signal; the leading samples with |s| <= 1e-8 are always removed unless all samples are that small, and a signal shorter than two windows (after that) is otherwise returned whole; exactly two windows raise; otherwise the cut is at the last window whose change in peak-to-peak range reaches 50% (free space) or 10% of the largest change and more than one window remains.", "quantifier": "every signal and window size", "why_tests_cant": "signals of every length and content", "anchors": ["nidn/fdtd_integration/calculate_transmission_reflection_coefficients.py: _eliminate_transient_part"]}
{"id": "C26", "title": "Peak finding is exact", "statement": "_torch_find_peaks returns, in increasing order and without duplicates, exactly the interior indices whose sample is strictly larger than both neighbours.", "quantifier": "every signal", "why_tests_cant": "signals of every length; plateaus and ends are corner cases", "anchors": ["nidn/fdtd_integration/calculate_transmission_reflection_coefficients.py: _torch_find_peaks"]}
{"id": "C27", "title": "Coefficients are ratios of signal power", "statement": "Transmission and reflection coefficients before normalisation are non-negative, do not change when all four (cut) signals are multiplied by a common positive factor, grow with the square of the material amplitude, transmission is 1 when the cut material signal equals the cut free-space signal (but not always when the uncut ones do, because the two are cut with different thresholds), and a free-space signal with mean square <= 1e-15 raises ValueError.", "quantifier": "every family of signals", "why_tests_cant": "scale invariance and identity laws over all signals", "anchors": ["nidn/fdtd_integration/calculate_transmission_reflection_coefficients.py: _peak_based_coefficient_computation, _check_for_all_zero_signal, _mean_square"]}
{"id": "C28", "title": "FDTD layout: layers tile the object region, detectors sit outside it", "statement": "In the FDTD grid built for an accepted config with positive finite lengths and a PML of at least one grid point, the material layers occupy consecutive half-open index ranges without gaps or overlaps starting at int(s*(pml+free)), each with its own permittivity and conductivity, everything else is vacuum; the reflection detector lies between the left PML and the first layer; the transmission detector lies behind the last layer, inside the grid, and in front of the right PML if the free space is at least one grid point longer than the detector distance (otherwise it can lie inside that PML).", "quantifier": "every valid config (real thicknesses, any number of layers)", "why_tests_cant": "truncation of real positions to indices for all configs", "anchors": ["nidn/fdtd_integration/init_fdtd.py: init_fdtd", "nidn/fdtd_integration/compute_fdtd_grid_scaling.py", "nidn/utils/validate_config.py lines 118-130"]}
{"id": "C29", "title": "FDTD spectra have one entry per wavelength in order", "statement": "compute_spectrum_fdtd returns reflection first and transmission second, each with N_freq entries, the i-th obtained from two fresh simulations at the i-th wavelength with the i-th permittivity slice; sample k of the signals they are computed from is the mean of the electric field along z over the three cells of the detector's column after step k+1, the transmitted one from the column behind the material and the reflected one from the column before it; the config's one-entry thickness list is replaced by N_layers copies, and a second call with the same config gives the same result. A permittivity slice without entries raises RuntimeError.", "quantifier": "every config, permittivity tensor and solver behaviour (oracle)", "why_tests_cant": "loop over arbitrary N_freq, config mutation across calls", "anchors": ["nidn/fdtd_integration/compute_spectrum_fdtd.py: compute_spectrum_fdtd"]}
{"id": "C30", "title": "Curl operators are adjoint", "statement": "On every box of cells, with any set of periodic directions (each at least two cells wide) and walls elsewhere, the discrete curl of E paired with H equals E paired with the discrete curl of H, for all fields that satisfy the wall conditions (tangential E zero on the walls, copies on periodic faces). The pairing is at most sqrt(D) times the sum of the squares, D being the number of directions with more than one cell.", "quantifier": "all grid sizes and all field values", "why_tests_cant": "summation by parts over all sizes", "anchors": ["nidn/fdtd/grid.py: curl_E, curl_H"]}
{"id": "C31", "title": "FDTD energy conservation and stability", "statement": "In a grid without PML and active sources whose fields satisfy the wall or periodic conditions, the energy sum(eps E^2) + sum(mu H_{n+1/2} H_{n-1/2}) decreases from step to step by exactly what absorbing objects take, so it is constant without them. With |courant| sqrt(D) < 1, which the default Courant number guarantees, and passive materials every field value stays within a fixed multiple of the initial energy for ever, also after pulsed interior sources have ended. Without the wall conditions the energy is not conserved (witness). Positive Courant numbers are accepted up to 1/sqrt(D); negative ones are accepted whatever their size.", "quantifier": "all grid sizes, initial fields, permittivities >= 1 and step counts", "why_tests_cant": "infinitely many steps and field configurations", "anchors": ["nidn/fdtd/grid.py: Grid.step, Grid.update_E, Grid.update_H, Grid.__init__ (courant number)"]}
{"id": "C32", "title": "FDTD is linear", "statement": "With periodic boundaries and additive sources but without PML the state after any number of steps is a linear function of initial fields and source amplitudes (superposition); with a PML it is affine: the constant 1e-16 added in the PML makes the difference of two solutions, not the sum, a solution.", "quantifier": "all fields, sources and step counts", "why_tests_cant": "superposition over all states and step counts", "anchors": ["nidn/fdtd/grid.py: Grid.step", "nidn/fdtd/boundaries.py: PML.update_E", "nidn/fdtd/sources.py: PointSource.update_E"]}
{"id": "C33", "title": "Finite propagation speed", "statement": "If two grids differ only in the fields of one cell, or only in one plane of cells across an axis and in the sources there, then after n steps they agree in every cell more than n cells away along an axis no periodic boundary wraps, and field detectors farther away have recorded the same values. Boundaries, objects and other sources may be present.", "quantifier": "all grids, cells, perturbations and step counts", "why_tests_cant": "light-cone claim over all step counts", "anchors": ["nidn/fdtd/grid.py: curl_E, curl_H, Grid.step"]}
{"id": "C34", "title": "Divergence of H is conserved", "statement": "Without boundaries, with soft sources and with uniform permeability, the discrete divergence of H at every cell (differences beyond the last cell counted as zero) is the same after every number of steps.", "quantifier": "all grids, fields and step counts", "why_tests_cant": "invariant over all histories", "anchors": ["nidn/fdtd/grid.py: curl_E, Grid.update_H"]}
{"id": "C35", "title": "Time bookkeeping of the grid", "statement": "run(n) performs exactly n steps, run(a) followed by run(b) equals run(a+b), time_steps_passed counts steps since construction or reset, and reset followed by run reproduces a fresh run's fields when no PML is present (with a PML it does not, because the PML's convolution memory is not reset).", "quantifier": "all step counts and grids", "why_tests_cant": "composition law over all histories", "anchors": ["nidn/fdtd/grid.py: run, step, reset, time_passed"]}
{"id": "C36", "title": "Detectors record each step exactly once", "statement": "After n steps every detector holds exactly n E-records and n H-records, record k is the field at the detector cells right after the E (resp. H) update of step k, and later steps never alter earlier records. The number a current detector records for a cell is the mean of the circulations of H around the cell and around the one below it, plus half the y-part of the first circulation, which is counted twice.", "quantifier": "all step counts, detector placements and grids", "why_tests_cant": "history property", "anchors": ["nidn/fdtd/detectors.py: LineDetector.detect_E, detect_H; grid.py update_E, update_H"]}
{"id": "C37", "title": "Component names on a grid are unique", "statement": "After any sequence of registrations, including failing ones whose exception is caught, the attribute names of a grid are unique. Registering a named component whose name the grid already has raises (ValueError for sources, detectors and objects) and leaves names, fields and materials unchanged. A rejected source, detector or PML stays in the grid's component list, and every later step raises whatever else is registered; a rejected object has no effect on any run if it is a plain one or its index keeps within the grid; an absorbing object can be refused after its permittivity was already written.", "quantifier": "every sequence of registrations", "why_tests_cant": "history of registrations, including failing ones", "anchors": ["nidn/fdtd/sources.py/_register_grid, detectors.py/_register_grid, objects.py/_register_grid, boundaries.py/_register_grid"]}
{"id": "C38", "title": "Periodic boundaries copy opposite faces", "statement": "After every E update with a periodic boundary in a direction (no later source on the face) the low face equals the high face for E, and after every H update the high face equals the low face for H. As long as no registration raised, each face has at most one boundary; registering a second one raises AttributeError, but a periodic boundary rejected this way acts in every later step all the same. A periodic boundary belongs to the first axis whose index touches a border of the grid (0, -1, or a slice of at most one cell starting there) and takes both faces of that axis; without such an axis IndexError is raised.", "quantifier": "all grids and step counts, all registration sequences", "why_tests_cant": "invariant over all steps", "anchors": ["nidn/fdtd/boundaries.py: PeriodicBoundary, _PeriodicBoundaryX/Y/Z"]}
{"id": "C39", "title": "What a PML adds", "statement": "For every PML thickness, face, positive stability parameter and positive Courant number the decay factors satisfy 0 < b < 1 and the coupling factors -1 < c <= 0 with c = 0 exactly where the conductivity is zero; the electric decay grows strictly towards the outer border; the magnetic one does so at the low side, while at the high side the outermost layer has no magnetic conductivity; as long as the fields stay below B the convolution memory stays below 2B for any number of steps. With any number of PMLs, every step of a run adds to the curl in each cell a PML covers the curl of its memory - the sum over all earlier steps of the field difference along the PML's axis, weighted with b^(age) and c - plus the constant 1e-16 on the electric side, and adds nothing in other cells.", "quantifier": "all thicknesses, Courant numbers and input histories", "why_tests_cant": "all thicknesses and infinite histories", "anchors": ["nidn/fdtd/boundaries.py: PML._sigma, _calculate_parameters, update_phi_E, update_phi_H, _PMLXlow.._PMLZhigh"]}
{"id": "C40", "title": "Silence stays silent (without PML)", "statement": "A grid with zero fields and no sources stays exactly zero for any number of steps if it has no PML; with a PML it does not: after one step the PML cells hold courant*1e-16/eps.", "quantifier": "all grids and step counts", "why_tests_cant": "invariant over all histories", "anchors": ["nidn/fdtd/grid.py: step", "nidn/fdtd/boundaries.py: PML.update_E line 405-409"]}
{"id": "C41", "title": "Absorbing material only damps", "statement": "For an absorbing object with non-negative conductivity and positive permittivity (non-negative Courant number) the factor applied to the old field has magnitude <= 1 and the curl is weighted by a factor in (0,1]; with zero conductivity an accepted registration (and any within the grid) is exactly that of a lossless object; objects with relative permittivity in [1,1/m] keep a passive grid passive; a lossless object placed over an absorbing one does not remove the absorption.", "quantifier": "all permittivities > 0, conductivities >= 0, Courant numbers", "why_tests_cant": "real-valued parameters", "anchors": ["nidn/fdtd/objects.py: AbsorbingObject._register_grid", "nidn/fdtd/grid.py: update_E lines 282-289"]}
{"id": "C42", "title": "Index normalisation of components", "statement": "Distances of at least minus half a cell are converted to the nearest grid index (halves up, ints unchanged), smaller ones to an index half to one and a half cells too high; a line detector or source spanning y covers every y index exactly once at fixed x and z; negative line bounds are not counted from the end; an object slice covers exactly its half-open range, negative bounds count from the end, and its last layer along an axis takes the normal component from the end of the grid; a single number selects one layer, counted from the end if negative, except that -1 is refused or without effect, and an absorbing object absorbs in exactly that layer; slices with a step other than 1 are refused for objects; a PML is accepted only on a slice from index 0 to a positive bound or from a negative bound to the end; block detectors include their stop index, so one with an open-ended slice is accepted and makes every step raise.", "quantifier": "all slices, indices, grid spacings", "why_tests_cant": "index arithmetic over all slices", "anchors": ["nidn/fdtd/grid.py: _handle_distance, _handle_slice", "nidn/fdtd/detectors.py: _handle_slices", "nidn/fdtd/objects.py: _handle_slice"]}
{"id": "C43", "title": "Source signals", "statement": "At step q a point source adds amplitude times its waveform to Ez of its cell and nothing elsewhere, and a line source across the grid adds amplitude times a normalised bell exp(-2((j-m)/m)^4) around its middle cell m times its waveform to its cells and nothing elsewhere; the waveform is sin(2*pi*q/P+phase) with the period rounded to whole steps P (off by at most half a step), or the hanning pulse of the given step, cut off when its envelope completes a period, or (line sources only) the ricker pulse; no signal exceeds the amplitude; a ricker point source makes every run raise until the pulse would be over.", "quantifier": "all steps, periods, amplitudes, grids", "why_tests_cant": "functions of unbounded time", "anchors": ["nidn/fdtd/sources.py: PointSource.update_E, LineSource._register_grid, LineSource.update_E, _ricker", "nidn/fdtd/waveforms.py: hanning"]}
{"id": "C44", "title": "Reciprocal lattice", "statement": "Lattice_Reciprocate returns vectors with Lk_i . L_j = 1 if i=j else 0 for every pair of linearly independent lattice vectors, and reciprocating twice gives back the lattice. The pair is the only dual pair, and dependent vectors raise ZeroDivisionError.", "quantifier": "all linearly independent pairs of real vectors", "why_tests_cant": "real-valued domain", "anchors": ["nidn/trcwa/utils/kbloch.py: Lattice_Reciprocate"]}
{"id": "C45", "title": "Circular truncation selects whole shells", "statement": "Lattice_getG with circular truncation returns fewer than nG distinct integer orders sorted by |k|, with the zero order first when there is any; of all integer pairs none whose |k|^2 is at most that of a returned order (plus 1e-10 of the longer reciprocal vector squared) is missing, so whole shells are returned and the selection is closed under negation; every complete disc of fewer than nG orders (separated from the next shell by more than the tolerance) is contained in it. As a consequence nG=1 returns no order at all and nG=5 on a square lattice returns one order although the five shortest orders are complete shells; nG<=0, other argument types and the parallelogramic method raise.", "quantifier": "all lattices and all requested truncation orders", "why_tests_cant": "all lattices and nG", "anchors": ["nidn/trcwa/utils/kbloch.py: Gsel_circular, Lattice_getG"]}
{"id": "C46", "title": "Wave vectors and modes of uniform layers", "statement": "Lattice_SetKs adds 2*pi times the reciprocal vector of each order to (kx0,ky0). In a uniform layer every mode number is the square root of eps*omega^2 - kx^2 - ky^2 with Im q >= 0 (and Re q >= 0 if Im q = 0), it is the same for both polarisations, and the unit vectors are eigenvectors of the layer's matrix with eigenvalues q^2. For patterned layers the returned numbers and vectors are eigenpairs of the layer's matrix whenever the eigensolver returns eigenpairs. A mode number is determined by its square and its wave never grows along its direction.", "quantifier": "all orders, permittivities, frequencies", "why_tests_cant": "complex-valued domain, branch choice", "anchors": ["nidn/trcwa/utils/kbloch.py: Lattice_SetKs", "nidn/trcwa/trcwa.py: SolveLayerEigensystem_uniform, MakeKPMatrix"]}
{"id": "C47", "title": "Layer bookkeeping of TRCWA", "statement": "After any sequence of Add_LayerUniform/Add_LayerGrid/Add_LayerFourier the i-th id entry has layer number i, its family counters index exactly the permittivity / grid size / parameter supplied for that layer, all lists have consistent lengths, and the counters equal the number of layers of each kind.", "quantifier": "every sequence of layer additions", "why_tests_cant": "histories of any length", "anchors": ["nidn/trcwa/trcwa.py: Add_LayerUniform, Add_LayerGrid, Add_LayerFourier, Init_Setup"]}
{"id": "C48", "title": "Permittivity Fourier matrices", "statement": "The entry of get_conv for orders i and j is the Fourier coefficient of the grid at the difference of the orders; it exists for all pairs exactly if the grid has more cells along each axis than any such difference, else IndexError. The matrix depends only on differences of orders, is linear in the grid, Hermitian for real grids, has the mean permittivity on its diagonal and is a multiple of the identity for constant grids. Epsilon_fft returns its exact inverse and the block matrix with every entry zeroed whose real and imaginary parts are both below 1e-14, including large negative ones: a constant pattern of negative real permittivity becomes the zero matrix, and a lossless pattern can lose its Hermitian symmetry (witness).", "quantifier": "all grids, orders", "why_tests_cant": "all sizes and permittivities", "anchors": ["nidn/trcwa/utils/fft_funs.py: Epsilon_fft, get_conv"]}
{"id": "C49", "title": "The S-matrix solves the layer-matching equations", "statement": "For every stack and pair of layers for which GetSMatrix returns, the returned S-matrix maps (a_i, b_j) to (a_j, b_i) for every family of amplitudes with continuous tangential E and H at every interface, such amplitudes exist for all incoming ones, and no other four matrices do this. The S-matrix of a layer with itself, or of a reversed range, is the identity, two identical neighbouring layers act as one of the summed thickness, and SolveExterior returns the outgoing amplitudes of the one and only solution.", "quantifier": "all stacks, all layer indices i<=j, all amplitudes, any matrix size", "why_tests_cant": "induction over the number of layers and all matrices", "anchors": ["nidn/trcwa/trcwa.py: GetSMatrix, SolveExterior, SolveInterior"]}
{"id": "C50", "title": "Poynting flux bookkeeping", "statement": "Forward plus backward flux of GetZPoyntingFlux equals the real flux of the total field, the forward flux with b=0 and the backward flux with a=0 reduce to the single-direction flux with opposite sign, by-order fluxes sum to the total, and scaling all amplitudes by c scales fluxes by |c|^2.", "quantifier": "all amplitude vectors, mode matrices, sizes", "why_tests_cant": "complex vectors of every size", "anchors": ["nidn/trcwa/trcwa.py: GetZPoyntingFlux, RT_Solve"]}
{"id": "C51", "title": "TRCWA films: vacuum, Fresnel, Airy, energy balance, and which stacks can be solved", "statement": "A stack built by compute_spectrum for a 1x1 grid is the film stack set up by hand with the same films at frequency f(1 + i/(2 Qabs)). If all permittivities are equal, reflection is 0 and transmission is the loss due to the imaginary frequency. Without films the powers are given by Fresnel's formulas, with one film by Airy's, with any number by the textbook recursion, all times a loss factor exp(-2 sqrt(eps_top) Im omega) of the top layer. For real permittivities and a real frequency R + T = 1. Passive stacks, uniform or patterned, have R, T >= 0 and R + T at most the loss factor; they can always be set up and solved if uniform, and patterned absorbing ones fail only if the eigensolver fails.", "quantifier": "all numbers of layers, thicknesses and permittivities", "why_tests_cant": "energy conservation over arbitrary stacks", "anchors": ["nidn/trcwa/trcwa.py: GetSMatrix, RT_Solve", "nidn/trcwa/init_trcwa.py"]}
{"id": "C52", "title": "TRCWA stack construction follows the config", "statement": "_init_trcwa builds N_layers+2 layers: top and bottom of thickness 1 with the configured permittivities, layer i with thickness PER_LAYER_THICKNESS[0] (if it is the only one) or [i] and the modes of permittivity slice i, at angular frequency 2 pi f (1 + i/(2e5)). It never succeeds for patterned grids with Nx = 3, or with Nx = 1 and either Ny = 3 or more than one layer.", "quantifier": "all configs and grids", "why_tests_cant": "shape-dependent branch over all sizes", "anchors": ["nidn/trcwa/init_trcwa.py: _init_trcwa", "nidn/trcwa/trcwa.py: GridLayer_geteps"]}
{"id": "C53", "title": "TRCWA spectra and dispatch", "statement": "compute_spectrum_trcwa returns two lists of N_freq entries (reflection, transmission), entry i computed only from frequency i and permittivity slice i, raises ValueError if any permittivity is NaN before anything else and AssertionError on any shape mismatch; compute_spectrum dispatches on the solver name and returns None for unknown solver names.", "quantifier": "all configs, tensors, solver oracles", "why_tests_cant": "loop over arbitrary N_freq", "anchors": ["nidn/trcwa/compute_spectrum_trcwa.py", "nidn/utils/compute_spectrum.py"]}
{"id": "C54", "title": "Networks that work and networks that cannot", "statement": "For any number of hidden layers and any initial draws, the SIREN built for a positive frequency maps each row of encoding_dim numbers to out_features numbers strictly between 0 and 1 and refuses rows of another length; it computes sines of omega times weighted sums plus bias, then a linear layer and the sigmoid; its initial weights lie within the prescribed bounds; a frequency that is not positive (accepted by validation) makes it impossible to build. NERF does the same exactly when hidden_layers is not 3 or 4: with 4 every call raises, with 3 the inputs are appended to the outputs; it computes rectified weighted sums, the inputs being appended behind the fifth layer, then a layer with the sigmoid. Voxel models exist for regression only and start within the permittivity ranges; unknown model types raise NotImplementedError. With encoding_dim 4 the model evaluated on the sample grid yields one row per point, and regression gives a permittivity grid of the configured shape; any other encoding_dim raises RuntimeError.", "quantifier": "all numbers of hidden layers, neurons and features, all draws, all grids", "why_tests_cant": "all layer counts", "anchors": ["nidn/training/utils/nerf.py: NERF", "nidn/training/utils/siren.py: Siren", "nidn/training/model/init_network.py"]}
{"id": "C55", "title": "Signal averaging along the detector", "statement": "The detector signal used by the spectrum is, per time step, the arithmetic mean over the detector's cells of the field's z component; it is linear in the records, has one value per time step, and lies between the minimum and maximum of the z components.", "quantifier": "all records of any length", "why_tests_cant": "all lengths and values", "anchors": ["nidn/fdtd_integration/compute_spectrum_fdtd.py: _average_along_detector, _get_abs_value_from_3D_signal"]}
{"id": "C56", "title": "Saving and loading runs", "statement": "In every history of saves from one working directory, some of them cut short at any point, a run saved completely is loaded back unchanged from the name it was saved under unless a later save had the same folder, name and second (a later complete save replaces it, one cut short destroys it). Saves whose names have no slash, into subfolders without '..' and without parts ending in _run.pk, always succeed when the results folder holds nothing but run files. With slashes in the name two different subfolder/name pairs can share a file, and the save raises when the folder does not exist.", "quantifier": "every history of saves with arbitrary configs, names, subfolders, times and crash points", "why_tests_cant": "histories of file-system operations with crashes", "anchors": ["nidn/training/save_run.py", "nidn/training/load_run.py"]}
{"id": "C57", "title": "Simulation/world unit conversion of fields", "statement": "simE_to_worldE and worldE_to_simE (and the H versions) are mutually inverse and linear.", "quantifier": "all field values", "why_tests_cant": "real-valued domain", "anchors": ["nidn/fdtd/conversions.py"]}
{"id": "C58", "title": "Backend selection", "statement": "set_backend succeeds exactly for torch, torch.T, torch.cpu.T, torch.cuda and torch.cuda.T where T is an attribute of torch (any attribute, not only float types), cuda names only with a GPU, and then selects the named class and type (float64 when omitted) whatever was selected before; it raises RuntimeError exactly for names beginning with torch.cuda without a GPU, AttributeError exactly for unknown types, ValueError otherwise; a failing call leaves the backend unchanged, except that an unknown type is noticed after the class has been switched.", "quantifier": "all strings, all sets of torch attributes and all sequences of calls", "why_tests_cant": "infinite set of names", "anchors": ["nidn/fdtd/backend.py: set_backend"]}
{"id": "C59", "title": "Announced layer thickness on the grid", "statement": "validate_config announces for every FDTD layer the thickness it gets on the grid; it is computed as if the layer were the first one, so it differs from the thickness the layer really gets for some stacks, by at most one grid point.", "quantifier": "all grid scalings, PML and free space thicknesses and layer thickness lists", "why_tests_cant": "rounding over all real scalings and stacks", "anchors": ["nidn/utils/validate_config.py: _check_grid_scale", "nidn/fdtd_integration/init_fdtd.py: init_fdtd"]}
{"id": "C60", "title": "Standard absorbing border", "statement": "DomainBorderPML with a border of at least one cell on a grid at least two borders wide in every direction and without boundaries registers exactly one PML of that thickness on each of the six faces and nothing else. A grid narrower than two borders is refused with IndexError and left as it was; a border of no cells is refused with IndexError and leaves a grid that cannot be run.", "quantifier": "all border widths and grid shapes", "why_tests_cant": "all shapes and widths", "anchors": ["nidn/fdtd/boundaries.py: DomainBorderPML, PML._register_grid"]}
{"id": "C61", "title": "Whether a run raises does not depend on field values", "statement": "A run of n > 0 steps completes if and only if every boundary, detector and source is usable (placed, indices inside the grid, non-zero periods and pulse parameters, PML not thicker than the grid); the field values play no role.", "quantifier": "all grids, component lists, field states and step counts", "why_tests_cant": "all component configurations and unboundedly many steps", "anchors": ["nidn/fdtd/grid.py: run, step, update_E, update_H", "nidn/fdtd/detectors.py, sources.py, boundaries.py update and detect methods"]}
{"id": "C62", "title": "Vacuum layers reflect nothing", "statement": "If every layer is vacuum (permittivity 1, no loss), the simulation with layers yields exactly the free-space signals and compute_spectrum_fdtd reports reflection 0 (or NaN when the free-space reference has no power) at every wavelength.", "quantifier": "every accepted config, number of layers, wavelength and number of time steps", "why_tests_cant": "equality of two simulations for all configs and lengths", "anchors": ["nidn/fdtd_integration/compute_spectrum_fdtd.py: compute_spectrum_fdtd", "nidn/fdtd_integration/init_fdtd.py: init_fdtd", "nidn/fdtd/objects.py: AbsorbingObject"]}
{"id": "C63", "title": "Starting a training run prepares it completely, changes nothing the user set, and a model kept from another kind of run does not fit", "statement": "Starting a training run (the first step of run_training) refuses an invalid config with the validator's exception. Otherwise it writes at most the target frequencies, the materials and their number, the number of outputs and the model; every other entry keeps its value and the config stays exactly as valid as it was. The frequencies are those of the configured range, the outputs are two for regression and one per material for classification, and a model is built for them only if none is there. Starting again changes nothing, whatever the random numbers. With the settings a network on coordinates needs (encoding_dim 4, positive thicknesses, siren with positive siren_omega or nerf with hidden_layers other than 3 and 4; for classification at least two materials and two frequencies) the start succeeds for every valid config, and the first grid has shape Nx x Ny x N_layers x N_freq, with material weights that sum to one in every cell for classification; the voxel model also works for regression. Three kinds of valid configs do not work: siren_omega <= 0 (the start raises RuntimeError), encoding_dim other than 4, and nerf with 3 or 4 hidden layers (the first grid raises RuntimeError). A started regression run whose type is changed to classification keeps its two-output model when it is started again, and every grid then raises RuntimeError unless there are exactly two materials.", "quantifier": "all configs, settings, material files, random draws and earlier states of the run", "why_tests_cant": "tests start a handful of configs; the frame (nothing else changes), idempotence and success for every valid config quantify over all configs, and the failing settings are all accepted by the validator", "anchors": ["nidn/training/run_training.py:_init_training", "nidn/training/model/init_network.py:init_network", "nidn/training/model/model_to_eps_grid.py:model_to_eps_grid", "nidn/utils/validate_config.py:_validate_config", "nidn/materials/material_collection.py:MaterialCollection"]}
{"id": "C64", "title": "TRCWA results do not depend on the eigensolver's choice of eigenvectors; constant patterns act as uniform layers", "statement": "For one configuration, permittivity grid and frequency, two eigensolvers that both return a basis of eigenvectors (in any order, with any scaling, and mixed in any way within equal eigenvalues) lead to the same reflection and transmission, and so to the same spectra. A stack given on an Nx by Ny grid whose cells are all equal gives the same reflection and transmission as the stack given on a single cell (where no eigensolver is used at all), as long as no permittivity lies under the solver's noise threshold (real and imaginary part both below 1e-14; every negative real permittivity does).", "quantifier": "all configurations with a usable lattice, grid sizes, layer counts, permittivities, frequencies, sorting routines and pairs of eigensolvers for which both calculations return", "why_tests_cant": "LAPACK returns one particular basis; a test cannot vary it over all bases, nor over all grids and stacks", "anchors": ["nidn/trcwa/trcwa.py:SolveLayerEigensystem", "nidn/trcwa/trcwa.py:GetSMatrix", "nidn/trcwa/trcwa.py:RT_Solve", "nidn/trcwa/compute_spectrum_trcwa.py:compute_spectrum_trcwa", "nidn/trcwa/utils/fft_funs.py:Epsilon_fft"]}
{"id": "C65", "title": "Moving, turning or mirroring a pattern changes neither reflection nor transmission (TRCWA)", "statement": "If the permittivity grids of all layers are moved by the same number of cells (periodically), turned by half a turn, or, when the lattice vectors lie along the axes, mirrored along one axis, then reflection and transmission at every frequency stay the same, provided the solver's noise threshold drops no Fourier coefficient of either pattern. Without that condition it fails: a four-cell stripe moved by one cell has a permittivity matrix that no change of basis relates to the original one, because coefficients whose real and imaginary parts are both negative are set to zero.", "quantifier": "all configurations with a usable lattice, grid sizes, layer counts, permittivities, frequencies, shifts (any integers), orientations, sorting routines and pairs of eigensolvers that return a basis", "why_tests_cant": "an invariance over all patterns, lattices, shifts and truncations; a test can only compare a few pairs up to rounding", "anchors": ["nidn/trcwa/compute_spectrum_trcwa.py:compute_spectrum_trcwa", "nidn/trcwa/trcwa.py:RT_Solve", "nidn/trcwa/utils/fft_funs.py:Epsilon_fft", "nidn/trcwa/utils/fft_funs.py:get_conv", "nidn/trcwa/utils/kbloch.py:Lattice_getG"]}
{"id": "C66", "title": "Power by diffraction order adds up and obeys selection rules", "statement": "RT_Solve(byorder=1) returns one reflected and one transmitted power per diffraction order. Their sums are the total powers, and one call succeeds exactly when the other does. No order carries negative power, and for passive layers none exceeds the incident power. Moving a pattern changes no order's power and mirroring it exchanges the mirrored orders. An order can carry power only if its wave is unchanged by every move that leaves all layers unchanged: uniform layers feed only the zero order, patterns constant along one axis deflect nothing along that axis, and a unit cell made of p equal parts feeds only every p-th order.", "quantifier": "all lattices and numbers of orders for which an object can be set up, all grids, layer counts, permittivity patterns, thicknesses and frequencies, all eigensolvers returning a basis of eigenvectors, all moves and mirrorings", "why_tests_cant": "a test compares a few orders of a few gratings; the rules concern every pattern with a given symmetry and every order kept, including those that are evanescent in one of the outer media", "anchors": ["nidn/trcwa/trcwa.py:RT_Solve", "nidn/trcwa/trcwa.py:GetZPoyntingFlux", "nidn/trcwa/trcwa.py:GridLayer_geteps", "nidn/trcwa/utils/kbloch.py:Lattice_getG", "nidn/trcwa/init_trcwa.py:init_trcwa"]}
{"id": "C67", "title": "What the queries of a solved stack return", "statement": "For a stack whose spectrum can be computed, asking for the wave amplitudes succeeds for the first layer (number 0) and the last one, and raises for every other layer number, inner layers included. Asking further back in the same layer multiplies every forward amplitude by the factor its wave gains on that distance and divides every backward amplitude by it, and in these two layers no wave grows in its direction of travel. In the first layer the only forward wave is the incident one, in the order (0, 0); in the last layer there is no backward wave. The amplitudes of the two layers belong to the one field that is continuous at every interface for these incident waves. The field, stress and volume-integral queries raise for every stack and every layer. After any sequence of layer calls the permittivity query shows the permittivity given for that layer if it is uniform, returns nothing for a Fourier layer, and raises for a grid layer and for a number beyond the last layer.", "quantifier": "all configurations, permittivity grids, frequencies, depths, offsets and layer numbers; for the permittivity query all sequences of layer calls, layer numbers, sample counts and component names", "why_tests_cant": "Layers, depths, frequencies and call sequences are unbounded, and a test of the two working layers cannot show that no other number ever works or that the reported amplitudes are those of the only continuous field.", "anchors": ["nidn/trcwa/trcwa.py: TRCWA.GetAmplitudes_noTranslate, TRCWA.GetAmplitudes, TRCWA.Solve_FieldFourier, TRCWA.Solve_FieldOnGrid, TRCWA.Volume_integral, TRCWA.Solve_ZStressTensorIntegral, TRCWA.Return_eps, SolveExterior, SolveInterior, TranslateAmplitudes"]}
{"id": "C68", "title": "Frequency analysis of recorded signals", "statement": "For the frequency analysis of a recorded signal the default padding doubles the record. For a frequency band and a number of bins the padded length is the least for which that many bins fit into the band. Asking for a resolution instead never gives a usable padding, because the padded length is not positive. The bins carry the frequencies of the discrete Fourier transform, all within half the sampling rate; the index range returned as their real part holds negative frequencies for every record of four or more bins, and every request for a band raises. A transform is returned only before the first step, and is then empty; after any step the request raises.", "quantifier": "all record lengths, time steps, bands, numbers of bins and resolutions", "why_tests_cant": "Minimality of the padding compares with every other length, and that no argument makes the transform or the resolution work is a statement about all arguments.", "anchors": ["nidn/fdtd/fourier.py: FrequencyRoutines.compute_padding, FrequencyRoutines.compute_frequencies, FrequencyRoutines.FFT, FrequencyRoutines.impedance"]}
{"id": "C69", "title": "What the plots show", "statement": "The spectrum plot draws reflectance and transmittance over wavelength and an absorptance that completes them to 1, and raises for lists of different lengths. The comparison plot draws both spectra over the same wavelengths; the numbers above are zero exactly if the curves agree, and their mean is the training loss with exponent 1. The grid plots draw one marker per cell at its place in the cube. The model grid shows the absolute value of the mean permittivity, which is at most the mean absolute value and can be 0 for permittivities of absolute value 1. The epsilon grid shows the norm over the frequencies, which grows with their number. The grid per frequency works exactly for at most four existing frequencies and shows the wavelength and permittivities of each. The material grid labels each cell with a material closest to it. In the plot per point each curve stands at the place of its name and the materials drawn are exactly the closest ones; it raises for a single frequency. Saving all plots writes six files for four or more frequencies and raises after three files for fewer.", "quantifier": "all configs, permittivity grids, spectra, material tables, frequency lists and evaluations of the model", "why_tests_cant": "Plots are judged by eye; which cell a marker or curve belongs to, and for which numbers of frequencies plotting works, has to hold for every grid size and every list of frequencies.", "anchors": ["nidn/plots/plot_spectrum.py: plot_spectrum", "nidn/plots/plot_spectra.py: plot_spectra", "nidn/plots/plot_model_grid.py: plot_model_grid", "nidn/plots/plot_epsilon_grid.py: plot_epsilon_grid", "nidn/plots/plot_model_grid_per_freq.py: plot_model_grid_per_freq", "nidn/plots/plot_material_grid.py: plot_material_grid", "nidn/plots/plot_eps_per_point.py: plot_eps_per_point", "nidn/plots/save_all_plots.py: save_all_plots"]}
{"id": "C70", "title": "Running the configs of a folder", "statement": "Running all configs of a folder with run_cfgs.py ends normally exactly if every config loads, trains, saves and plots; the first that does not ends the batch and the configs after it are not run. Whatever was on disk before, a batch that ends normally has written all plots of all its configs. Every run that was saved can be loaded when the batch is over, however it ended, unless a later config has its name and was saved in the same second, and its plots are in its folder. Files outside the folder of the batch are left alone. A config with fewer than four frequencies is trained and saved but ends the batch while plotting.", "quantifier": "all lists of configs, names without slashes, outcomes and times of loading, training, saving and plotting, all file systems in which the batch's folder is new", "why_tests_cant": "The failures that can end a batch, the times of the saves and the file system met are unbounded; a test of one folder shows one course.", "anchors": ["nidn/scripts/run_cfgs.py", "nidn/training/save_run.py: save_run", "nidn/plots/save_all_plots.py: save_all_plots"]}
{"id": "C71", "title": "Plane sources", "statement": "A plane source with a free name is accepted exactly if its index is one cell wide along exactly one axis (bounds in either order, missing ones the ends of the grid, equal ones one cell) and its polarization is one of '', x, xy, xyz, y, yz, z and not the letter of that axis; otherwise ValueError is raised. With a single letter the electric and magnetic polarizations lie in the plane at right angles; with other spellings the electric field can stand on the plane. After every step of a run the two fields on the plane are amplitude*sin(2 pi step/period + phase), whatever else was on the grid when it was placed. At index -1 or outside the grid the source is accepted and never does anything; a slice with a negative start that runs past index 0 is accepted and makes every run raise.", "quantifier": "all indices, names, polarizations, periods, amplitudes and phases, all grids with whatever components, all numbers of steps", "why_tests_cant": "Indices, grids and run lengths are unbounded; a test shows one plane on one grid.", "anchors": ["nidn/fdtd/sources.py: PlaneSource", "nidn/fdtd/grid.py: __setitem__, step"]}
{"id": "C72", "title": "Saved detector readings", "statement": "After `save_simulation` succeeded and with only named line and block detectors on the grid, `save_data` writes one file `detector_readings.npz` into the folder of the simulation, with exactly the arrays \"name (E)\" and \"name (H)\" for each detector, and changes nothing else on disk. In a history in which nothing raised, the arrays of a detector have one sample for each time step run since it was placed (resets do not remove samples), and each sample is what the fields on the detector's cells were after that step. If a detector cannot be stored, `save_data` raises KeyError (current detector) or TypeError (no name) for the first such detector and leaves everything as it was; without `save_simulation` it raises. The folder is `fdtd_output/fdtd_output_<date> (<name>)` below the working directory; files that exist are kept, and two simulations share a folder exactly if they have the same working directory, name and second, provided the clock did not tick between its six readings. Readings on disk stay as they are until `save_data` is called again. `generate_video` writes the video and, if asked, deletes exactly the images in the folder. Known weaknesses, proved as such: if a second detector is refused because its name is taken and the exception is caught, `save_data` stores empty arrays for the first one; simulations nearly an hour apart can share a folder if the hour ends between two readings of the clock; if ffmpeg fails, TypeError is raised and the working directory stays inside the folder, so that the next simulation is saved inside the previous one.", "quantifier": "All grids, all histories of assignments, runs, resets, saves and videos, all names, times, clocks and file systems.", "why_tests_cant": "The number of samples and their values depend on the whole history; the places depend on the clock and on what is on disk.", "anchors": ["nidn/fdtd/grid.py: Grid.save_simulation, Grid.save_data, Grid.generate_video", "nidn/fdtd/detectors.py: LineDetector.detector_values, BlockDetector.detector_values, CurrentDetector.detector_values"]}
{"id": "C73", "title": "Pulse shapes", "statement": "`normalized_gaussian_pulse(x, fwhm, center)` lies in (0, 1], is 1 exactly at the center, is symmetric about it, falls strictly with the distance from it, and is at least one half exactly on the interval of width |fwhm| around the center. `normalized_gaussian_derivative_pulse` is the derivative of that pulse up to a constant factor, is odd about the center and has its only peak 1 and only minimum -1 one standard deviation away from it. Both raise ZeroDivisionError exactly for width 0. The signals of point and line sources never exceed the amplitude in absolute value; the Ricker pulse stays between -2 exp(-3/2) and 1, reaching 1 exactly `offset` periods after the start.", "quantifier": "all times, widths, centers, amplitudes, signal parameters and step counts", "why_tests_cant": "Bounds, monotonicity and derivatives are statements about all real arguments; sampling a pulse cannot exclude an overshoot between the samples.", "anchors": ["nidn/fdtd/waveforms.py: normalized_gaussian_pulse, normalized_gaussian_derivative_pulse, hanning", "nidn/fdtd/sources.py: PointSource.update_E, LineSource.update_E, _ricker"]}
{"id": "C74", "title": "Soft voltage sources", "statement": "Placing an unnamed SoftArbitraryPointSource on a single cell adds a current detector on that cell and succeeds; on anything but a single cell it raises ValueError; with a name it always raises (UnboundLocalError on a free name and a single cell). A step with soft sources is the ordinary step with source voltage / grid spacing added to E_z in the cell of each source and nowhere else. The input voltage of step t is waveform[t], 0 after the end of the waveform; the source voltage is the input plus, for positive impedance, impedance times the current read one step before (0 at time 0); both are recorded once per step. A source placed at time 0 inside a grid without other soft sources never keeps the grid from running; sources without impedance change nothing after their waveform. A single source placed after time 0 makes the next step raise IndexError, and one whose placement raised makes later steps raise AttributeError.", "quantifier": "all grids, index expressions, waveforms, names, impedances, numbers of sources and numbers of steps", "why_tests_cant": "The recorded voltages are a feedback loop over the whole history of a run; a test observes a single waveform for a fixed number of steps.", "anchors": ["nidn/fdtd/sources.py: SoftArbitraryPointSource", "nidn/fdtd/detectors.py: CurrentDetector", "nidn/fdtd/grid.py: Grid.step, Grid.run, Grid.__setitem__"]}
{"id": "C75", "title": "Listing a config", "statement": "print_cfg prints every item of a config once and in order: a list or array on a line of its own, any other value as key and value padded to columns (booleans as 0 or 1), at most three to a line; only a material collection is left out. It raises TypeError exactly if some value is neither a list, an array, a material collection, a string, a bool nor a number; what stands before that item has been printed then. The default config can be listed; the same config with the results a training run adds cannot.", "quantifier": "all configs (any number of items of any kind, in any order), any way of writing numbers", "why_tests_cant": "The layout depends on the positions of lists and collections among the items; a test lists a few configs, not every order and every kind of value a run may add.", "anchors": ["nidn/utils/print_cfg.py: print_cfg", "nidn/scripts/run_cfgs.py", "nidn/utils/resources/default_config.toml"]}
{"id": "C76", "title": "The picture of a grid shows what is on it, where it is", "statement": "grid.visualize draws a picture exactly if one of x, y, z is given as an int that is an index of the grid, the norm is known, the plane is more than one cell wide and high, the fields need no gradients and every source, detector and object has been placed (after a history in which nothing was rejected: if no point source is outside and no line or detector empty); otherwise a wrong norm or choice of planes, and nothing else, raises ValueError. The image shows the energy E^2 + H^2 of every cell of the plane, with 0 where a point source is; the logarithmic scale ends 1e-4 above its greatest value. For each object there is a rectangle with exactly the pixels of the cells of its slices, for each plane source one with exactly the pixels it covers, for each line source and line or current detector a line from its first to its last cell, for each block detector an outline with all cells it reads, the shaded pixels are those of the cells of the absorbing layers seen from the side, and lines mark the sides joined by a periodic boundary. Not all can be seen: a plane source one cell thick has no pixel from its edge, a detector at negative indices is outside of the picture, and for planes across y the column of a point source is taken from its y-location, so that a source beyond the grid's extent along x spoils the picture.", "quantifier": "every grid with any sources, detectors, boundaries and objects, every history of assignments and steps, every plane and norm", "why_tests_cant": "tests draw one picture, if any, and nobody compares every pixel and outline for all shapes, places and planes", "anchors": ["nidn/fdtd/visualization.py: visualize", "nidn/fdtd/grid.py: Grid.visualize", "nidn/fdtd/objects.py: Object._register_grid"]}
{"id": "C77", "title": "Frames of a film are kept apart, complete and in order", "statement": "grid.visualize with save=True writes exactly one file, whose name differs for different indices, is the one ffmpeg looks for (file%04d.png) and is in alphabetical order for indices below 10000 (not beyond); a frame that is refused changes nothing, and without a folder TypeError is raised. If one picture can be drawn and the grid runs n steps, a film of n frames (a step and a frame in turn) is complete, the grid is that after n steps, and no other file is touched. Made into a video with delete_frames in a folder without other images, only the video remains.", "quantifier": "every grid, every plane, every number of frames and first index, every state of the files", "why_tests_cant": "no test saves more than a few frames, and the claim is about every index, every length and what is left of the files", "anchors": ["nidn/fdtd/visualization.py: visualize", "nidn/fdtd/grid.py: Grid.run, Grid.save_simulation, Grid.generate_video"]}
{"id": "C78", "title": "Decibel map of a block detector", "statement": "`dB_map_2D` draws a map exactly if it is given the readings of a block detector with at least one step and one cell and an axis from -3 to 2. Each pixel shows, in decibels, how much the chosen component varied at that place in the lowest layer (greatest minus least reading) over the least variation in the map: no pixel is below 0 dB, the place of least variation is at 0 dB, and larger variations are shown higher. If some place did not vary at all no pixel is a number. The places printed as peaks are exactly those of the greatest variation. Scaling the readings, changing their sign, or adding a constant per place changes neither the map nor the peaks; other components and layers do not matter.", "quantifier": "all blocks of readings of any size, all axes, all scalings and backgrounds", "why_tests_cant": "the map depends on every reading of the block through maxima and minima over all steps and places; a few arrays cannot show what holds for all", "anchors": ["nidn/fdtd/visualization.py: dB_map_2D"]}
{"id": "C79", "title": "Plots of detected pulses", "statement": "`plot_detection` draws one curve per line-detector array and requested component: the envelope of the readings in the first cell, in the figure of the field named by the last letter but one of the array's name, and lists with each curve, in the order of the dictionary, the first step at which it is at its maximum. It works exactly if all line arrays have names of two or more letters and the last array of the dictionary has a first cell at the first step, which (if all components are drawn) has at most four entries; None and an empty dictionary raise. So readings of block detectors, announced as dumped, make it fail if they come last and are more than four cells wide, and so do readings of no step. For the file `save_data` writes of line detectors, the curves are those of the E and H readings of each detector.", "quantifier": "all dictionaries of readings, all requested components, all envelope functions that keep the length", "why_tests_cant": "what is drawn depends on every array, its name and the order of the dictionary; a few dictionaries cannot cover them", "anchors": ["nidn/fdtd/visualization.py: plot_detection", "nidn/fdtd/grid.py: Grid.save_data"]}
{"id": "C80", "title": "Coherent transfer matrices solve the wave equation of the stack", "statement": "If `coh_tmm` returns, the amplitudes it lists per layer are a plane wave in the stack: at every interface the tangential electric and magnetic fields on the two sides agree, with amplitude 1 coming in and r going out in the first medium, and t going out and nothing coming in in the last; r and t are the only numbers for which such a wave exists. The angles obey Snell's law in every layer, kz is 2 pi n cos(theta)/lambda, the last angle points forward, and the inputs are returned. It returns only for s or p, equally many indices and thicknesses, at least two media, outer media infinite and passive, inner ones finite; and it does return for every stack of absorbing or transparent layers, each not beyond its critical angle, as does `coh_tmm_reverse`. One interface gives Fresnel's coefficients, one slab Airy's formulas. Beyond the critical angle a last layer of the material of the last medium makes the calculation divide by zero, although without that layer it is fine.", "quantifier": "all polarizations, index and thickness lists of any length, complex angles, wavelengths; all functions inverting the sine", "why_tests_cant": "tests compare a few stacks with known numbers; that the recursion solves the boundary conditions of any stack is a statement over all lengths and indices", "anchors": ["notebooks/tmm_core.py: coh_tmm, coh_tmm_reverse, list_snell, snell, is_forward_angle, interface_r, interface_t"]}
{"id": "C81", "title": "Power balance of the transfer-matrix method", "statement": "T and power_entering are the powers of the waves in the last and first medium in units of that of the incident wave, and R is |r|^2. `absorp_in_each_layer` gives one number per layer, which add up to 1: what does not enter, for each inner layer the power at its start minus that at its end, and T. For passive layers of non-negative thickness and a real transverse wave number no inner number is negative, 0 <= T <= power_entering, and for a transparent first medium R >= 0 and R + T <= 1; for layers without loss all inner numbers are 0 and R + T = 1.", "quantifier": "all stacks for which coh_tmm returns, of any length; for the inequalities all passive stacks without opaque layers", "why_tests_cant": "conservation must hold for every stack and angle; a finite set of stacks does not exclude a layer that creates power", "anchors": ["notebooks/tmm_core.py: coh_tmm, T_from_t, R_from_r, power_entering_from_r, absorp_in_each_layer"]}
{"id": "C82", "title": "Fields and absorption at a point of the stack", "statement": "`position_resolved` works exactly for points at or before the first interface, within the thickness of an inner layer, or in the last medium. It gives the power and the electric field of the wave of `coh_tmm` carried to that point; `absor` is minus the derivative of the power along the depth; it is never negative in a passive medium and 0 in one without loss. Power and the tangential fields are continuous at every interface, and n^2 Ez is; at the first interface the power is power_entering, at the last T.", "quantifier": "all results of coh_tmm, all layers, all depths", "why_tests_cant": "depth is a continuous variable and the derivative a limit; tests sample points", "anchors": ["notebooks/tmm_core.py: position_resolved"]}
{"id": "C83", "title": "Light from the other side of a stack", "statement": "`coh_tmm_reverse` and `coh_tmm` satisfy reciprocity: n0 cos(theta0) t' = nN cos(thetaN) t. With transparent outer media T is the same from both sides, whatever is in between; if nothing absorbs, R is the same too.", "quantifier": "all stacks for which both return, of any length", "why_tests_cant": "reciprocity relates two recursions running in opposite directions over arbitrary lists", "anchors": ["notebooks/tmm_core.py: coh_tmm_reverse, coh_tmm, snell"]}
{"id": "C84", "title": "Stacks that act alike", "statement": "Multiplying all thicknesses and the wavelength by the same number leaves all results the same (kz is divided by it). A layer of thickness 0 anywhere between two media, of any index, changes neither r, t, R nor T. Cutting a layer in two changes none of them (if it is not opaque). Adding half waves to a transparent layer (kz h = m pi) leaves r, R and T, and multiplies t by (-1)^m.", "quantifier": "all stacks of any length, all positions of the layer, all factors, all m", "why_tests_cant": "invariances over all stacks and positions", "anchors": ["notebooks/tmm_core.py: coh_tmm"]}
{"id": "C85", "title": "Polarization in the transfer-matrix method", "statement": "At normal incidence s and p light have opposite r, equal t, and equal R and T. `unpolarized_RT` gives the means of R and of T over s and p and returns exactly if both calculations do; for a transparent first medium and passive layers its results are not negative and add up to at most 1, exactly 1 without loss.", "quantifier": "all stacks of any length, all wavelengths; for the second part all angles", "why_tests_cant": "two separate recursions have to agree on every stack", "anchors": ["notebooks/tmm_core.py: unpolarized_RT, coh_tmm"]}
{"id": "C86", "title": "Depths in a stack", "statement": "`find_in_structure` and `find_in_structure_with_inf` say in which layer, and how far behind its start, a depth is: the layer whose start is the sum of the thicknesses before it and whose end lies strictly behind the depth (layers of thickness 0 are skipped), the media in front and behind for other depths; this is the only answer and every depth has one. A stack with an infinite layer inside is refused with ValueError. `layer_starts` is minus infinity followed by the partial sums of the thicknesses. At every depth that is found `position_resolved` can be evaluated, and in a passive stack without an opaque layer its power never grows with the depth, across all layers and interfaces.", "quantifier": "all stacks of any length with thicknesses not negative, all depths, all angles, wavelengths and polarizations", "why_tests_cant": "a statement about every depth (real number) of every stack, and about every pair of depths", "anchors": ["notebooks/tmm_core.py: find_in_structure, find_in_structure_with_inf, layer_starts, position_resolved"]}
{"id": "C87", "title": "The absorption as a function of depth", "statement": "The function `absorp_analytic_fn.fill_in` makes for a layer gives, at every depth in it, the absorption density `position_resolved` computes there; its integral over the layer is the entry `absorp_in_each_layer` gives for the layer. It can be made for every layer, also counted from the end; for the first medium it is zero. `flip` gives the function read from the other end of the layer (flipping twice gives it back) and exists for layers of finite thickness; `scale` multiplies it; `add` adds two of them and raises ValueError for functions with different decay constants.", "quantifier": "all stacks of any length, layers, depths, angles, wavelengths, polarizations, factors and pairs of functions", "why_tests_cant": "an identity of two formulas at every point of every layer, and an integral", "anchors": ["notebooks/tmm_core.py: absorp_analytic_fn, position_resolved, absorp_in_each_layer"]}
{"id": "C88", "title": "Ellipsometric angles", "statement": "`ellips` gives angles psi in [0, pi/2) and Delta in (-pi, pi] with tan(psi) exp(i Delta) = -rp/rs, where rs and rp are the reflected amplitudes of `coh_tmm` for the two polarizations; these angles are unique (Delta if rp is not 0), and exist exactly if both calculations return and rs is not 0. At normal incidence psi is pi/4 and Delta 0, whatever the stack.", "quantifier": "all stacks of any length, all angles and wavelengths", "why_tests_cant": "uniqueness of the angles, and equality over all stacks", "anchors": ["notebooks/tmm_core.py: ellips, coh_tmm"]}
{"id": "C89", "title": "Grouping of coherent and incoherent layers", "statement": "inc_group_layers(n_list, d_list, c_list) accepts exactly the lists of equal length whose outer layers are infinite and incoherent and whose entries of c_list are 'i' or 'c'; other non-empty lists raise ValueError. all_from_inc lists the incoherent layers in order and inc_from_all inverts it; all_from_stack lists exactly the maximal runs of coherent layers together with the incoherent layer before and after, in order; stack_n_list and stack_d_list hold the indices and thicknesses of these layers, the outer ones infinite; stack_from_all, inc_from_stack and stack_from_inc are the matching inverse tables.", "quantifier": "all lists of indices, thicknesses and coherency letters, of any length", "why_tests_cant": "the tables are built by a loop with state over any pattern of letters; a test sees only the patterns it lists", "anchors": ["notebooks/tmm_core.py:inc_group_layers"]}
{"id": "C90", "title": "Intensities of the incoherent method", "statement": "When inc_tmm succeeds, the intensities it reports in the incoherent layers (VW_list), R and T are the only ones which balance at every crossing: what leaves a crossing on either side is what is reflected there plus what is transmitted from the other side, with intensity 1 coming in and none from behind. A crossing between neighbouring incoherent layers has Fresnel's reflection and transmission in both directions, at the angles of Snell's law; a crossing through a stack of coherent layers has the R and T of coh_tmm for that stack from either side; an incoherent layer lets pass exp(-4 pi Im(n cos th) d / lambda), at least 1e-30. It succeeds for a forward or backward real n sin th, transparent incoherent layers and absorbing or transparent coherent layers that are not opaque.", "quantifier": "all polarizations, stacks of any length and pattern, angles, wavelengths and any inverse of the complex sine", "why_tests_cant": "the result is a product of matrices over any number of layers; uniqueness of the balance and success are statements about all inputs", "anchors": ["notebooks/tmm_core.py:inc_group_layers", "notebooks/tmm_core.py:inc_tmm"]}
{"id": "C91", "title": "Energy in the incoherent method", "statement": "inc_absorp_in_each_layer returns one number per layer, the last one T, which sum to 1. The number of an incoherent layer is what enters it less what leaves it; the number of a layer in a stack is the sum of what it absorbs of the light from either side. If no crossing makes light and no layer amplifies, 0 <= R, 0 < T, R + T <= 1 and the backward intensity never exceeds the forward one; if each crossing conserves the light, R + T = 1. So it is for transparent incoherent layers and passive coherent layers, where also each number is at least 0, the first one is R and inner incoherent layers absorb nothing; R + T = 1 if the coherent layers are lossless. For absorbing incoherent layers the bound does not hold: a thin layer of index 1 + i in vacuum transmits more light than comes in.", "quantifier": "all polarizations, stacks of any length and pattern, angles and wavelengths", "why_tests_cant": "a conservation law over all stacks; tests check a few stacks to a tolerance", "anchors": ["notebooks/tmm_core.py:inc_group_layers", "notebooks/tmm_core.py:inc_tmm", "notebooks/tmm_core.py:inc_absorp_in_each_layer"]}
{"id": "C92", "title": "Agreement of the incoherent with the coherent method and with the slab formula", "statement": "If all inner layers are coherent, inc_tmm returns the R and T of coh_tmm. With one inner incoherent layer it returns the sum over all echoes in that layer. The thickness of transparent incoherent layers changes neither R, T nor the intensities. inc_find_absorp_analytic_fn, documented to return the absorption function of a coherent layer, raises for every layer.", "quantifier": "all polarizations, stacks, angles, wavelengths and layer numbers", "why_tests_cant": "equalities between two algorithms for every stack; one function fails for all inputs", "anchors": ["notebooks/tmm_core.py:inc_group_layers", "notebooks/tmm_core.py:inc_tmm", "notebooks/tmm_core.py:coh_tmm", "notebooks/tmm_core.py:inc_find_absorp_analytic_fn"]}
{"id": "C93", "title": "The two frequency-domain codes agree on uniform layers", "statement": "For a stack of uniform layers at normal incidence, the reflection and transmission that TRCWA returns (through compute_spectrum on a 1x1 grid, or set up by hand) are those the transfer-matrix code of the notebooks returns for the same stack, thicknesses and wavelength 1/f: equal at a real frequency, and otherwise times the factor exp(-4 pi sqrt(eps_top) f Im u) that the imaginary part of the frequency f u takes away in the top layer of thickness 1 (u = 1 + i/(2 10^5) in compute_spectrum). Polarization and the choice of the square root of a permittivity do not matter. For passive layers whose imaginary phase stays below 35 both codes succeed.", "quantifier": "all configurations with positive outer permittivities, all numbers of layers, complex permittivities, thicknesses, frequencies and complex frequency factors, both polarizations, every correct argsort and principal arcsin", "why_tests_cant": "The notebooks compare the two codes for a few stacks at some frequencies; agreement for every stack depth and complex index needs an induction over the layers relating scattering matrices and transfer matrices.", "anchors": ["nidn/trcwa/compute_spectrum_trcwa.py:compute_spectrum_trcwa", "nidn/trcwa/init_trcwa.py:init_trcwa", "nidn/trcwa/trcwa.py:TRCWA.RT_Solve", "notebooks/tmm_core.py:coh_tmm"]}
{"id": "C94", "title": "The shipped materials at every frequency", "statement": "Every material file shipped with nidn is loaded and found by its name whatever the order in which the files are listed. The files are ordered by wavelength with positive indices, so each row serves the wavelengths between the middles to its neighbours, and outside its file a material is constant; only four of the ten files cover the default range of 1 to 30 micrometres. At every frequency the real part of a shipped permittivity is between -73 and 89, the imaginary part between -0.77 and 163, the modulus above 0.13, and TRCWA never rounds it to zero. Nine materials are passive at every frequency. Aluminium oxide amplifies (negative imaginary part) exactly at wavelengths up to 0.285 and between 27.4024 and 29.8574 micrometres, so configs whose longest wavelength lies there use an amplifying material; it exceeds the default limit of the imaginary part in three bands; in two bands its real part is negative and an FDTD spectrum of it raises ValueError. Germanium is lossless exactly beyond 1.935725 micrometres.", "quantifier": "all frequencies, all ten shipped materials, all orders of the files, all skip lists leaving two materials, all configs with the given longest wavelength, all FDTD configs and slices filled with the material", "why_tests_cant": "a test samples some frequencies; the claims hold at every frequency and the exact edges of the bands depend on which row is nearest", "anchors": ["nidn/materials/data/*.csv", "nidn/materials/material_collection.py:MaterialCollection", "nidn/trcwa/load_material_data.py:_load_material_data", "nidn/trcwa/compute_target_frequencies.py:compute_target_frequencies", "nidn/fdtd_integration/compute_spectrum_fdtd.py:compute_spectrum_fdtd"]}
{"id": "C95", "title": "A whole training run: evaluation, solver, losses and loop together", "statement": "Training on a config that can be started is the loop of C21-C23 on the evaluation fixed at the start: what the solver stores in the config on the way (spread thicknesses, grid scaling, frequencies) does not change what later iterations see, and afterwards the config differs in at most those two entries and only with FDTD. Without noise, an iteration that yields no spectrum is followed by the weights kept last, and if none were kept the run never recovers and the model stays as it is. Without noise and renormalisation the returned model, evaluated on the returned config, gives the smallest loss of the log again. The returned config can be trained again: starting it changes nothing and keeps the returned model, and the first loss of the second log is the smallest of the first. With FDTD and a negative range of real permittivities every iteration fails, the run ends normally with empty logs and the initial model; with an unknown solver, which the validator lets pass, it ends in a TypeError; with TRCWA every logged number is finite and not negative. The solver gets the grid of the model entry by entry; the loss of an iteration with a physical spectrum is the mean distance of its reflectances from the target reflectances and of its transmittances from the target transmittances (and of the absorptions if asked for) plus the regularisation, and the L1 error is the mean absolute distance.", "quantifier": "all configs and runs that can be started, all numbers of iterations, all draws of weights and noise, all optimizer steps and eigen-solvers, all histories of failing and succeeding evaluations", "why_tests_cant": "The interplay of config changes, failures and the kept weights depends on the order of failing and succeeding iterations over thousands of iterations; tests run a handful of iterations on one config.", "anchors": ["nidn/training/run_training.py: run_training, _init_training", "nidn/training/model_to_eps_grid.py: model_to_eps_grid", "nidn/utils/compute_spectrum.py: compute_spectrum", "nidn/fdtd_integration/compute_spectrum_fdtd.py: compute_spectrum_fdtd", "nidn/training/losses/spectrum_loss.py: _spectrum_loss_fn"]}
{"id": "C96", "title": "The tensor functions written for torch agree with linear algebra and say which inputs they refuse", "statement": "torch_transpose reverses all dimensions of a tensor of any rank and is its own inverse; the FDTD backend's transpose does the same and, given axes, permutes the dimensions they name (negative ones from the end) and accepts exactly lists that name each dimension once. torch_dot is the matrix, matrix-vector or inner product; it accepts exactly fitting shapes with equal types or a complex factor, raises RuntimeError otherwise (also for a vector before a matrix, which numpy accepts), and with two complex types the first decides the precision. torch_eye and torch_zeros give unit and zero tensors of the default precision; the unit matrix is neutral, products associate, and transposing reverses products. The backend's linspace gives as many evenly spaced numbers as asked for, rising or falling, divides by zero for one number with end point and for none without, and cut off towards zero it gives the cells of line detectors and sources.", "quantifier": "all tensors of any rank, shape, type and entries; all lists of axes; all bounds, counts and end point flags", "why_tests_cant": "Ranks, shapes and types are unbounded; tests of the solvers only multiply the matrices of a few layers.", "anchors": ["nidn/trcwa/utils/torch_functions.py: torch_transpose, torch_dot, torch_eye, torch_zeros", "nidn/fdtd/backend.py: transpose, linspace", "nidn/fdtd/detectors.py: LineDetector._handle_slices", "nidn/fdtd/sources.py: LineSource._handle_slices"]}
{"id": "C97", "title": "Which log messages are shown", "statement": "After set_log_level with the name of a level, in any case, a message is shown exactly once if it comes from nidn or a module below it and reaches the level, and not at all otherwise, whatever handlers and settings came before. With a name that is no level (ValueError) or something that is no string (AttributeError) nothing is shown any more until handlers are added again. Importing nidn removes all handlers, shows three lines and leaves the level at WARNING.", "quantifier": "all sessions of settings, added and removed handlers and messages; all level names, modules and levels", "why_tests_cant": "It is a claim about every history of settings and every later message.", "anchors": ["nidn/utils/set_log_level.py: set_log_level", "nidn/__init__.py"]}
{"id": "C98", "title": "The plot of losses shows the run", "statement": "The curves L1, Loss and Weighted Average Loss of the plot show the positive finite numbers of the run's logs under their own names; the place of a point is the number of earlier iterations that gave a spectrum, so failed iterations leave no gap and the axis does not count iterations. The weighted average at a place is the mean of the last twenty losses up to it.", "quantifier": "all training runs that end normally, of any length and any history of failures", "why_tests_cant": "The relation between iterations and points depends on which iterations failed over the whole run.", "anchors": ["nidn/plots/plot_losses.py: plot_losses", "nidn/training/run_training.py: run_training"]}
{"id": "C99", "title": "Rounding does not tear the simulated layers apart", "statement": "The FDTD solver converts lengths to grid columns with floating point sums and products. Whatever these return, every layer begins in the column where the layer before it ends, and no layer ends before it begins. With the accuracy of double precision every border, both detectors and the end of the grid are in their exact column or the neighbouring one, a border being off only if its exact position is next to a column's border; the transmission detector stays behind the layers and inside the grid, and the reflection detector in front of the layers.", "quantifier": "all thicknesses, scalings, distances and numbers of layers; all sums and products with a bounded relative error, and all orders of summation", "why_tests_cant": "Rounding shifts borders only for particular thicknesses; no finite sample shows that layers never overlap and that detectors never end up in the material.", "anchors": ["nidn/fdtd_integration/init_fdtd.py:init_fdtd"]}
{"id": "C100", "title": "Plane waves travel at the speed of light on the grid", "statement": "On a uniform grid without boundaries and sources a transversal plane wave of any direction and polarisation that satisfies the grid's dispersion relation remains that wave at every later step, in every cell the ends of the grid cannot have influenced. Along an axis a wave of M cells travels no faster than light in the material and at most the fraction (2 pi/M)^2/24 slower; a validated config has at least ten cells per vacuum wavelength, so light travels at 98.3 % of its speed or more.", "quantifier": "all wave vectors, amplitudes, phases, materials, Courant numbers, grid sizes, numbers of steps and cells; all validated configs and their wavelengths", "why_tests_cant": "A simulation compares a few wavelengths at a few steps within a tolerance; the exact form at every later step and the error bound concern all of them.", "anchors": ["nidn/fdtd/grid.py:Grid.step", "nidn/fdtd/grid.py:curl_E", "nidn/fdtd/grid.py:curl_H", "nidn/fdtd_integration/compute_fdtd_grid_scaling.py:_compute_fdtd_grid_scaling"]}
{"id": "C101", "title": "Light of one frequency in a layered FDTD simulation obeys one balance equation and loses no power", "statement": "In the simulations set up for a stack of layers, every column between the source and the right absorbing boundary has the permittivity and the absorption factor of its layer, and the time step is 99 % of the stable one in two dimensions. An oscillation of one frequency whose column amplitudes satisfy a three-term balance equation goes on for ever in all columns the surroundings cannot have influenced; conversely the amplitudes of any simulation that has settled satisfy it. So a settled simulation has two waves on either side of the material, incoming power is outgoing power plus what the columns absorb, and if nothing comes in from the right the reflected and transmitted parts of the incident wave are determined by the material alone: they exist, are unique, and |r|^2 + |t|^2 <= 1 with equality if no layer absorbs.", "quantifier": "all layouts, layers with positive permittivity and no gain, frequencies, wave numbers, amplitudes, numbers of columns and time steps", "why_tests_cant": "A test runs one stack at one wavelength for some number of steps and compares numbers; the balance of power and the uniqueness hold for every stack, every frequency and every amplitude.", "anchors": ["nidn/fdtd/grid.py:Grid.update_E", "nidn/fdtd/grid.py:Grid.update_H", "nidn/fdtd_integration/init_fdtd.py:init_fdtd", "nidn/fdtd_integration/compute_spectrum_fdtd.py:compute_spectrum_fdtd"]}
{"id": "C102", "title": "At an interface the simulation reflects and refracts as Fresnel's formulas say, up to the resolution", "statement": "Light coming from one material into another is reflected and transmitted in the simulation with the amplitudes rho = sin((k2-k1)/2)/sin((k2+k1)/2) and tau = sin k1/sin((k2+k1)/2), where k1, k2 are the phases per column, and goes on so for ever. These are Fresnel's amplitudes with each index of refraction divided by the cosine of half its phase per column. rho^2 + tau^2 sin k2/sin k1 = 1. From vacuum into index n the reflected amplitude exceeds (n-1)/(n+1) by at most (1/cos(k2/2) - 1)/2, which is at most 0.03 with ten or more columns per wavelength in the material.", "quantifier": "all pairs of permittivities, wave numbers below the grid's limit, positions of the interface, numbers of time steps", "why_tests_cant": "A test compares one interface at one resolution with Fresnel's value within a tolerance; the error bound as a function of the resolution holds for all of them.", "anchors": ["nidn/fdtd/grid.py:Grid.update_E", "nidn/fdtd/grid.py:Grid.update_H", "nidn/fdtd/grid.py:curl_E", "nidn/fdtd/grid.py:curl_H", "nidn/fdtd_integration/init_fdtd.py:init_fdtd"]}
{"id": "C103", "title": "For layers without loss the FDTD simulation and the transfer-matrix solver agree about reflection and transmission", "statement": "Take layers of relative permittivity e_j, L_j columns each, without loss, in the FDTD simulation, and light that turns by k radians per column in vacuum. Once the simulation has settled and nothing comes in from the right, the amplitudes and powers of the reflected and of the transmitted wave are exactly the r, t, R and T the transfer-matrix solver returns at normal incidence for a slab in vacuum with index tan(kappa_j/2)/tan(k/2) and thickness kappa_j L_j / (k index) columns, where sin(kappa_j/2) = sqrt(e_j) sin(k/2), up to the phase fixed by where the slab stands. The index is at least sqrt(e_j) and at most sqrt(e_j)/cos(kappa_j/2), the thickness is between cos(kappa_j/2) L_j and L_j/cos(k/2), and k is the true phase per column up to the cosines of half a step: so the two methods agree in the limit of many columns per wavelength. The simulations NIDN sets up for a permittivity without imaginary part contain such layers side by side.", "quantifier": "every stack of any number of layers, every permittivity and number of columns, every frequency that travels in every layer, every time step, and every arcsin that inverts the sine on the right branch", "why_tests_cant": "the agreement is an identity between two solvers for every stack and frequency; a test compares a few spectra within a tolerance that hides the numerical dispersion", "anchors": ["nidn/fdtd/grid.py:Grid.update_E", "nidn/fdtd/grid.py:Grid.update_H", "nidn/fdtd_integration/init_fdtd.py:init_fdtd", "nidn/fdtd_integration/compute_spectrum_fdtd.py:compute_spectrum_fdtd", "notebooks/tmm_core.py:coh_tmm"]}
{"id": "C104", "title": "The transmission and reflection reported for signals that have settled are the squared amplitude ratios, up to the error of the samples", "statement": "If what the removal of the transient leaves of each of the four signals is an oscillation with P >= 3 samples per period, at least two periods long, up to an error err per sample that is too small to move the crest, then each power is half the squared amplitude up to err(2a+err), and T and R are the ratios of these powers (normalised as in C24); each ratio is within 13 err/a of the squared ratio of the amplitudes. Without error T and R are exactly the squared amplitude ratios, whatever the phases, the number of periods and the rest. If the crest falls exactly in the middle between two samples, no peak is found and the power comes out too small by cos^2(pi/P). The signals are the oscillations of the detectors' columns, with the modulus of the complex amplitude of the column as amplitude, if the columns have settled before the part that is kept, and the difference that is taken for the reflected wave oscillates with the difference of the amplitudes. So for layers without loss T and R are those of the transfer-matrix solver.", "quantifier": "all signals of any length, every number of samples per period, amplitude, phase and error, every simulation and every step from which it has settled", "why_tests_cant": "the result must not depend on the phase, the length and the place of the peaks, which a test samples at a few values; the case of equal neighbouring samples at the crest has to be singled out among all phases", "anchors": ["nidn/fdtd_integration/calculate_transmission_reflection_coefficients.py:calculate_transmission_reflection_coefficients", "nidn/fdtd_integration/calculate_transmission_reflection_coefficients.py:_peak_based_coefficient_computation", "nidn/fdtd_integration/calculate_transmission_reflection_coefficients.py:_torch_find_peaks", "nidn/fdtd_integration/compute_spectrum_fdtd.py:_get_detector_values", "notebooks/tmm_core.py:coh_tmm"]}
{"id": "C105", "title": "Which wavelengths the FDTD simulation can tell apart", "statement": "With a continuous source the light sent has a period of a whole number of time steps: the wavelength divided by the way light goes in one step (0.99/sqrt 2 of a cell), rounded to the nearest integer. The wavelength that is simulated is at most half that length away from the one asked for. The signals of a simulation depend on the wavelength only through this number and the conductivities (imaginary part of the permittivity times frequency). So two wavelengths with the same number of steps, the same steady-state window and the same conductivities, in particular two such wavelengths for materials without loss, have exactly the same transmission and reflection in the spectrum. Wavelengths at least one step length apart never have the same number of steps.", "quantifier": "every layout, every two wavelengths, every permittivity grid and every two entries of a spectrum", "why_tests_cant": "equality of whole simulations for all pairs of wavelengths in a class, for every number of time steps; a test compares a few pairs after a few steps", "anchors": ["nidn/fdtd_integration/init_fdtd.py:init_fdtd", "nidn/fdtd_integration/compute_spectrum_fdtd.py:compute_spectrum_fdtd", "nidn/fdtd/sources.py:LineSource._register_grid", "nidn/fdtd/sources.py:PointSource._register_grid", "nidn/fdtd/grid.py:Grid._handle_time"]}
{"id": "C106", "title": "A lossless simulation can be run backwards, and different fields stay different", "statement": "Take a grid without absorbing borders and without absorbing cells whose sources have fallen silent and whose periodic faces agree. Run it any number of steps, turn the magnetic field round, and call the two halves of a step in the opposite order (update_H, then update_E) the same number of times. The electric field in every cell is then exactly what it was at the start and the magnetic field is its negative. Without detectors none of these calls raises. More generally, also with absorbing cells of any loss other than exactly 1 or -1, two simulations of the same set-up whose fields differ somewhere in the grid differ somewhere after every number of steps: no step forgets or merges fields. With a loss of exactly 1 in every cell the electric field is forgotten in a single step.", "quantifier": "every grid size, every permittivity and permeability field, every set of periodic and wall boundaries, every silent source list, every initial field with matching periodic faces, every number of steps", "why_tests_cant": "a test sees one grid, one field and one number of steps up to rounding; the claim is exact and holds for all of them", "anchors": ["nidn/fdtd/grid.py: Grid.step, Grid.update_E, Grid.update_H, curl_E, curl_H", "nidn/fdtd/boundaries.py: PeriodicBoundary", "nidn/fdtd/objects.py: AbsorbingObject"]}
{"id": "C107", "title": "The three rows of a simulated stack even out away from the source", "statement": "NIDN simulates a stack on three rows with a periodic boundary, and its line source is stronger in the middle row. Between the source and the right absorbing border, in every run and for every source signal, the electric fields of three consecutive steps obey a wave equation with the material of the column in which rows 1 and 2 are each other's only neighbours; the first and the last row are equal after every step. In a simulation that has settled into one frequency, the mean of the rows obeys exactly the one-dimensional balance equation of C101, and the difference of the rows shrinks by a constant factor per column on the way from either end: by 5/2 or more if the wavelength in every layer is at least ten columns. A detector column records the mean up to a sixth of that difference.", "quantifier": "all layouts, layers with positive permittivity and no gain, sources, frequencies, amplitudes per row and column, and numbers of columns", "why_tests_cant": "a test compares one signal of one stack; that the unequal rows do not spoil the spectrum has to hold at every column, for every material and frequency", "anchors": ["nidn/fdtd_integration/init_fdtd.py: init_fdtd (y_grid_size)", "nidn/fdtd/grid.py: Grid.update_E, Grid.update_H", "nidn/fdtd/boundaries.py: PeriodicBoundary", "nidn/fdtd/sources.py: LineSource._register_grid", "nidn/fdtd/detectors.py: LineDetector"]}
{"id": "C108", "title": "A simulation does not know about a layer before light has been there and back", "statement": "In the time-domain simulations NIDN sets up, with the source between the left PML and the material: two stacks whose first j layers are the same give exactly the same samples at the reflection detector until light has had the time to travel from the source to layer j and back to the detector (one column per time step), whatever the other layers are. Compared with the free-space run the reflected signal is exactly zero until light has been to the first layer that is not vacuum and back. Each detector records exact zeros until light from the source, or what the right PML emits, can have reached it. If all time steps end before that, the entry of the spectrum raises ValueError.", "quantifier": "for every layout with positive lengths, every pair of stacks (any permittivities and thicknesses), every source kind and pulse, every wavelength, every number of time steps and every sample index", "why_tests_cant": "exact equality of all early samples must hold for every pair of stacks, every layout and every pulse; a test compares a few runs and cannot exclude a path (a boundary, a PML memory, the periodic rows) by which information arrives early in others", "anchors": ["nidn/fdtd_integration/init_fdtd.py: init_fdtd", "nidn/fdtd_integration/compute_spectrum_fdtd.py: compute_spectrum_fdtd", "nidn/fdtd_integration/calculate_transmission_reflection_coefficients.py: _check_for_all_zero_signal", "nidn/fdtd/grid.py: Grid.step", "nidn/fdtd/boundaries.py: PML"]}
{"id": "C109", "title": "A spectrum entry depends on the stack only through the permittivity of each grid column", "statement": "In the time-domain simulations NIDN sets up, two stacks that put the same permittivity in every column of the grid give exactly the same samples at both detectors and the same entry (transmission, reflection) of the spectrum, however the stacks are divided into layers and whatever the permittivity slice holds besides its first cell. Cutting a layer into two parts of the same material changes neither an entry nor the whole spectrum. Thicknesses that put every layer boundary in the same column give the same entry, so a change below the size of a cell has no effect. More time steps only append samples to the signals.", "quantifier": "for every layout with positive lengths, every pair of stacks of any number of layers, every source kind and pulse, every wavelength and every number of time steps", "why_tests_cant": "exact equality must hold for every stack, every place of the cut and every number of steps; the inverse permittivity of the components in the plane does change at a cut, so it has to be shown that no path through boundaries, PML memories or sources leads from them to the detectors", "anchors": ["nidn/fdtd_integration/init_fdtd.py: init_fdtd", "nidn/fdtd_integration/init_fdtd.py: _add_object", "nidn/fdtd_integration/compute_spectrum_fdtd.py: compute_spectrum_fdtd", "nidn/fdtd/grid.py: Grid.step", "nidn/fdtd/objects.py: AbsorbingObject", "nidn/fdtd/boundaries.py: PML"]}
{"id": "C110", "title": "Only ratios of lengths matter in a time-domain simulation", "statement": "If every length of a layout (PML, free space, layers, source position) and the wavelength are multiplied by the same positive factor and the number of columns per micrometre is divided by it, the simulations with and without the stack give exactly the same samples at both detectors, for continuous and Ricker pulses and for absorbing layers too. The entry of the spectrum is then the same if the steady-state window has the same number of samples; the window counts samples per micrometre of wavelength, so it is not the same in general.", "quantifier": "for every positive factor, every layout with positive lengths, every stack (any permittivities, any number of layers), every wavelength, every number of time steps and every sample", "why_tests_cant": "the factor, the layout and the stack range over the reals; exact equality of every sample for all of them cannot be sampled, and a unit mixed up in one place (conductivity, time step, source period) may cancel in the tested case", "anchors": ["nidn/fdtd_integration/init_fdtd.py: init_fdtd", "nidn/fdtd_integration/init_fdtd.py: _add_source", "nidn/fdtd_integration/init_fdtd.py: _add_object", "nidn/fdtd_integration/compute_spectrum_fdtd.py: compute_spectrum_fdtd", "nidn/fdtd/objects.py: AbsorbingObject", "nidn/fdtd/sources.py: PointSource"]}
{"id": "C111", "title": "The two polarizations of a flat grid do not mix", "statement": "In a time-domain grid one cell thick along an axis, the electric field along this axis with the magnetic field across it, and the electric field across it with the magnetic field along it, evolve independently: two grids that agree in one of these polarizations, in the part of the material it sees (permittivity, conductivity, permeability along its components), in the sources and in the coefficients and memory of the boundaries give exactly the same values of it in every cell after every step, however they differ in the other polarization and in the detectors. Field detectors at the same cells then record the same values of its components, and current detectors the same current along z if the grid is flat along z and the polarization is the one with E along z. Without PMLs a dark polarization that no source drives stays dark: point and line sources light only the polarization that contains E_z. With a PML a dark polarization does not stay dark.", "quantifier": "for every pair of grids one cell thick along any axis, of any size along the others, every anisotropic material, every number and kind of sources and boundaries (periodic, PML), every initial field, every number of time steps, every cell", "why_tests_cant": "the fields, materials and number of steps are unbounded; a wrong index in one of the curl or PML terms mixes the polarizations only for fields that a test of the usual simulation (one polarization) never has", "anchors": ["nidn/fdtd/grid.py: curl_E, curl_H", "nidn/fdtd/grid.py: Grid.update_E", "nidn/fdtd/grid.py: Grid.update_H", "nidn/fdtd/boundaries.py: PML.update_phi_E", "nidn/fdtd/boundaries.py: PML.update_phi_H", "nidn/fdtd/sources.py: PointSource.update_E", "nidn/fdtd/sources.py: LineSource.update_E", "nidn/fdtd/detectors.py: LineDetector, BlockDetector, CurrentDetector"]}
