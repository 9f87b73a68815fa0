# Formal model of KiDS-WL/onepower in Rocq

The model lives in `rocq/theories`. It is a shallow embedding of the Python sources at the pinned
commit (`/repo`), written function by function; each definition cites the file and lines it models.

## Conventions

* Floats are the reals `R` (rounding, overflow, NaN and infinities are not modelled; where the code divides by
  zero numpy gives inf/nan and Coq an arbitrary value, so theorems carry the hypothesis that excludes it).
* numpy arrays are index functions (`A1`..`A4`, `nat -> ... -> R`) with their sizes beside them; arrays whose
  length matters are lists.
* Python exceptions are values of `res A := Ok a | Err e`, `e` being the exception class.
* `x ** y` for x >= 0 is `fpow`, `10**x` is `pow10`, `np.log10` is `log10`.
* External code (scipy quadrature and linear interpolation, numpy histogram, linspace, logspace) is transcribed; other
  external code (hmf, halomod, astropy, camb, darkemu, hankel, the FFT) is a universally quantified argument.
* Model files contain definitions only; `*Spec.v` the vocabulary of the statements; `*Facts*.v` the proofs;
  theorems are in `*Props*.v`, closed by `exact`, each with `Print Assumptions` and, per property, an `Example` that
  meets the hypotheses.
* A property that turned out false is restated as the characterisation that holds, proved, and accompanied by a
  `..._refuted` theorem that exhibits the counterexample.

## Trusted base

* Coq's kernel (8.16.1), and the four standard-library axioms below.
* The reading of the source as the model. In particular:
  * the rules of `hmf._internals._cache` (`parameter`, `cached_quantity`, `Cosmology`/`Framework.update`), which are
    not part of the repository: a parameter assignment whose value compares different clears every cached quantity
    that recorded it; a switch additionally clears the recorded dependency sets;
    `update` assigns in the order given and calls `validate` at the end;
  * scipy `simpson` (Cartwright correction for an even number of samples), `interp1d(kind='linear')`,
    `RegularGridInterpolator` and `np.histogram`, as documented in `Quad.v`, `Interp.v`, `IaModel.v`;
  * the equations assumed of the gamma function (`IaSpec.gamma_function`; an instance is constructed).
* Libraries used: Coq standard library and Coquelicot (no axioms of its own).

## Plan and status per property

| id | property | model and proof | status |
|----|----------|-----------------|--------|
| C01 | Simpson mass/observable integrals are linear and exact for parabolas | `Quad.simpson` models scipy's irregular-grid Simpson rule on lists; linearity by unfolding, exactness by induction on the grid two intervals at a time. | proved |
| C02 | Integrals of non-negative integrands are non-negative on log-uniform mass grids | Same model; sign of the three local weights on a geometric grid, induction; refutation by a concrete 3-point grid with ratio > 2. | proved |
| C03 | The fixed-weight trapezoid integrator is the classical trapezoid rule | `trap_weights` mirrors the slice assignments, spec is the recursive classical trapezoid; equality by induction. | proved |
| C04 | Linear re-gridding reproduces nodes, stays in the convex hull and is linear | `Interp.interp1d` models scipy interp1d(kind=linear) with fill modes; hull/affine/linearity by induction over the bracketing search. | proved |
| C05 | Total occupation is centrals plus satellites | Five HOD models as records of index functions; total from `_compute_hod`; linearity of interpolation lifts it. | proved |
| C06 | Number densities add up | Quadrature linearity + interpolation linearity. | proved |
| C07 | Central and satellite fractions are a partition of unity inside the tabulated range and vanish outside | Ratio of integrals, interpolation with fill 0. | proved |
| C08 | Galaxy bias is the occupation-weighted mean of the halo bias | Weighted mean bounds through positivity of Simpson on log-uniform grids. | proved |
| C09 | Average halo mass of a sample | Refuted by a two-point mass grid with satellites; the true value is f_c times the mean halo mass of centrals. | proved |
| C10 | Central occupation is a probability | erf is defined as a Riemann integral (Coquelicot) and |erf| <= 1, monotone are proved. | proved |
| C11 | Satellite occupation is non-negative, non-decreasing in mass and respects its cut-off | Real analysis with Rpower. | proved |
| C12 | Zehavi is Zheng without scatter and without cut-off mass | Pointwise equality. | proved |
| C13 | Assembly-bias decoration is neutral at zero and bounded | Case analysis on the decoration. | proved |
| C14 | Conditional and observable functions split into centrals and satellites | Linearity of quadrature and interpolation. | proved |
| C15 | Observable and redshift bins are covered exactly | Model of np.linspace/logspace and zip(strict=False); exact ends proved; the bin-count claim is refuted by lists of unequal length. | proved |
| C16 | Total power is one-halo plus two-halo | Each spectrum modelled branch by branch over a mode type. | proved |
| C17 | Two-halo galaxy clustering is bias squared times linear power | ring + sqrt_Rsqr. | proved |
| C18 | Two-halo terms are mutually consistent | ring. | proved |
| C19 | Large-scale matter power tends to linear theory whatever the mass function | Linearity of Simpson; u = 1. | proved |
| C20 | Central alignment two-halo integral is the NLA amplitude | Linearity of Simpson, the compensation term cancels. | proved |
| C21 | Alignment spectra scale with the alignment amplitudes | Homogeneity of every branch. | proved |
| C22 | Central-satellite cross term of the intrinsic-intrinsic two-halo power | Refuted: the central-satellite cross term is counted once. | proved |
| C23 | Sign conventions of alignment cross-spectra | Signs per branch; the last clause (gi) is refuted. | proved |
| C24 | Response mode rescales by one common factor | Algebra on the response branch. | proved |
| C25 | Beyond-linear bias correction is bilinear, symmetric and vanishes with beta_nl | Finite sums over mass axes. | proved |
| C26 | hmcode transition smoothing interpolates between the terms | Power-mean inequalities on Rpower. | proved |
| C27 | Halo-term truncations are damping factors | Monotone rational/exponential functions; last clause refuted for two_halo_ktrunc, whose value is never used. | proved |
| C28 | Fortuna effective power is a mixture of linear and non-linear power | Convex combination. | proved |
| C29 | Baryonic feedback conserves and orders the mass budget | Monotone rational functions. | proved |
| C30 | Poisson factors follow their model | Direct. | proved |
| C31 | Dewiggling stays between the spectrum and its smooth part | The guard is modelled with `np.isclose` of a boolean; proved to fire never for three or more wavenumbers (refutation), Savitzky-Golay/Gaussian pieces of the dewiggle formula bounded. | proved |
| C32 | Configuration options are validated | `Validate.v`: one validator per option, in the order hmf applies them; exact acceptance conditions; a rejected update is shown to leave the object in the rejected configuration (refutation). | proved |
| C33 | Supplied power spectra must match the grids | Shape validators per mode. | proved |
| C34 | When Spectra results follow parameter updates | `CacheModel.v` is the hmf parameter/cached_quantity machine (memo table, recorded dependencies, invalidation); `CacheTable.v` is the dependency table extracted from the source by a script; freshness by an invariant over all update/read sequences; refuted for omega_m and for switches that are not declared. | proved |
| C35 | When UpsampledSpectra results follow its parameters | Same machine with permanent caches; refuted by update after results(). | proved |
| C36 | What computing alignments does to the caller's settings | Heap of dictionaries; induction over any sequence of alignment computations. | proved |
| C37 | Two-population mixing | Algebra; identical-population clause refuted. | proved |
| C38 | Upsampling preserves component sums and reproduces the input on its own grid | Interpolation linearity. | proved |
| C39 | results() stores exactly what was requested | State machine over call lists. | proved |
| C40 | Emulator parameters are clamped to the supported box | `BnlModel.test_cosmo`, `emulator` (trace of the vectors handed to the emulator). Case analysis on the two comparisons; amplitude algebra with ln/exp; numeric bounds on ln 21. | proved |
| C41 | Beyond-linear bias truncations are complementary | `BnlModel.low_k_truncation`, `high_k_truncation`. Logistic monotonicity. | proved |
| C42 | beta_nl tables are symmetric and correctly indexed | `BnlModel.bnl_table` (repeat/tile/fancy assignment as list programs), `outer`/`inner` loops, `nearest`. Induction over the lists; loop invariant on the set of entries written so far. | proved |
| C43 | Multipole range is within the coefficient tables | Integer arithmetic on the Z-valued option and list indexing. | proved |
| C44 | Downsampling keeps the end points and samples every quantity alike | List slicing with a stride; one list of indices shown to serve every tie-free quantity; ties refuted. | proved |
| C45 | Luminosity scaling is a continuous broken power law | Real analysis with Rpower, Coquelicot continuity; Simpson linearity and exactness. | proved |
| C46 | Alignment amplitude follows the selected dependence | Decision table over the option strings with every presence/absence of pivots and samples; positivity of Simpson on a uniform grid. | proved |
| C47 | Satellite radial alignment profile is capped and truncated | Real case analysis; the NFW mass by the fundamental theorem of calculus. | proved |
| C48 | Content of the alignment parameter dictionaries | `PipeModel.align_params`, `align_params_2` as dictionary updates in source order; symbolic execution of the eleven assignments. | proved |
| C49 | Splitting the alignment sample | `PipeModel.execute` over an abstract spectra object built on the `AddModel` mixing model; relational proof of two runs. | proved |
| C50 | beta_nl refresh schedule | `PipeModel.bnl_step`; induction over histories of calls (`PipeSpec.history`), failed calls included. | proved |
| C51 | Output sections of distinct bins never collide | Injectivity of decimal rendering; NoDup of the write log of a whole run. | proved |
| C52 | Matter HOD settings cover every galaxy bin | Heap of dictionaries, aliasing of the copied dictionary; min/max folds. | proved |
| C53 | Log-linear wavenumber interpolation keeps power positive | exp of interpolated log. | proved |
| C54 | Missing model parameters abort before output | Collection loops in a result monad; order of effects in `execute`. | proved |
| C55 | Real-space separations follow the transform convention | `RsModel.make_transformer`, `transform` on top of `FftModel`. The grid of numpy is rewritten as `log_grid`; the transform as a convolution. | proved |
| C56 | Sign-aware logarithmic interpolation | `RsModel.log_interp` on the interp1d model; case analysis on the signs of the table. | proved |
| C57 | Fast Hankel transform is linear and index-safe | `FftModel.fhti` writes cells of an uninitialised array, `fhtq` reads them; index arithmetic by induction over strided slices. | proved |
| C58 | Cosmology correction rescales separations once per bin | `RsModel.correct_loop` returns the block reached, also on failure; induction over the bins. | proved |
| C59 | Angle unit conversion is lossless and idempotent | `RsModel.theta_execute`; unit sizes in radians. | proved |
| C60 | One-halo terms are mass integrals | Simpson exactness pins integrand, normalisation and limits of the one-halo integrals against `RInt`. | proved |
| C61 | Two-halo terms are bias-weighted mass integrals | Same for the bias-weighted two-halo integrals. | proved |
| C62 | Gas mass scale is in linear units | Real inequality on the fitted gas fraction for all masses above 1e9. | proved |
| C63 | Angular alignment coefficients are the angular integrals | Gamma-function recursion against integration by parts (Coquelicot), binomial theorem, Bonnet recursion of the Legendre polynomials evaluated over Q; tables checked with an interval enclosure of pi. | proved |
| C64 | Luminosity tables partition the galaxy sample | Existence and uniqueness of the bin by induction on the edges; counting by induction on the sample. | proved |
| C65 | Upsampling the alignment transform reproduces and bounds it | Bilinear interpolation reduced to nested linear interpolation. | proved |
| C66 | Smoothed beta_nl vanishes at the pivot and ignores the emulator's calibration | `BnlModel.beta_final`, `hl_envelopes_idx`, `chunks`. Induction for diff/nonzero/argmin; algebra for the calibration. | proved |
| C67 | Emulator mass and radius scales are spheres of the stated density | `BnlModel.minimum_halo_mass`, `bnl_rvir`, grids. Cube roots. | proved |
| C68 | Pipeline redshift interpolation refuses to extrapolate | `PipeModel.interpolate_in_z` on top of the interp1d model. | proved |
| C69 | Every requested spectrum is written with its value, and nothing else | Success of the write monad decomposed into the exact log; converse inclusion by inspection of each stage; simulation between two runs. | proved |
| C70 | The fast Hankel transform is exact on its own basis and invertible | rfft/irfft in the fftpack layout as explicit sums; Dirichlet kernel orthogonality by induction. | proved |
| C71 | Projected correlation functions integrate each bin's own spectrum over its own redshift distribution | `RsModel.project`; linearity of Simpson and of the transform. | proved |
| C72 | The expansion and acceleration terms of the growth equation agree | `HmiModel.Hubble2`, `AH`, `Omega_m` over an abstract cosmology; derivative by hand from the dark energy law. | proved |
| C73 | Linear growth is positive, increasing and never faster than the scale factor | any pair (d, v) satisfying the first-order system and the initial values; sign and Wronskian arguments, an integrating factor for d/a. | proved |
| C74 | Collapse threshold and virial overdensity have the Einstein-de Sitter limit | matter-only growth by uniqueness (energy argument); the fits evaluated at Om = 1. | proved |
| C75 | HMCode ingredients override the user's halo choices, other ingredients honour them | `HmiModel.hmf_generator`: the loops with the in-place updates; closed form by induction. | proved |
| C76 | One halo model per redshift, independent of the other redshifts | the same closed form compared with that of the one-redshift instance; exact failure condition by cases on the broadcasts. | proved |
| C77 | Concentration amplitude follows the feedback strength | `HmiModel.K`; monotone powers of ten. | proved |
| C78 | Halo collapse redshifts | `HmiModel.collapse_redshift` with the root finder as argument. | proved |
| C79 | Cold-to-total transfer ratio is bounded | `HmiModel.Tk_cold_ratio`; algebra on the ratio of the two growth suppressions. | proved |
| C80 | Variance of the smoothed field | `HmiModel.sigmaR_cc` over `Quad.simpson`; nonnegative weights on a uniform grid. | proved |
| C81 | Observable functions belong to the same population as the number density | `ObsModel` over `HodModel`; exchange of the two Simpson sums, derivative of erf under the sum. | proved |
| C82 | Stellar-to-halo-mass relation of the Cacciato HOD | `HodModel.ca_mean`; derivative of the logarithm, limits at 0 and infinity, limit of erf. | proved |
| C83 | Alignment transforms are the spherical Bessel moments of the sheared profile | `UellModel` (both branches of compute_uell_gamma_r_hankel) with the library transforms as arguments; integral comparison with the NFW mass integral. | proved |
| C84 | Quadrature projection of spectra to real space | `OgataModel` over `RsModel`; change of variable x = k rp; the transform is an argument with its law. | proved |
| C85 | Matter power does not depend on galaxies | `RelSpec.with_galaxies`, `with_alignment` (records of replaced inputs); conversion. | proved |
| C86 | Spectra transform as volumes under a change of length unit | `RelSpec.in_units`; every building block is homogeneous of some degree. | proved |
| C87 | Response to the abundance of haloes | `RelSpec.with_abundance`; homogeneity of the mass integrals and of the interpolation. | proved |
| C88 | Spectra do not depend on which other wavenumbers are asked for | `RelSpec.on_wavenumbers`; a locality argument over the building blocks (`RelFacts3`). | proved |
| C89 | Spectra do not depend on which other redshifts are asked for | `RelSpec.on_redshifts`; the same locality argument; interpolation at nodes. | proved |
| C90 | Each bin is computed as if it were alone | `RelSpec.only_bin`; the same locality argument over the bin index. | proved |
| C91 | Which option files the pipeline module accepts | `OptModel.setup` over an arbitrary partial map of typed option values; every reader characterised, then the chain. | proved |
| C92 | The documented defaults are the defaults | agreement of the readers on two option maps, name by name; evaluation for the exceptions. | proved |
| C93 | Grids of the pipeline module | `OptModel.mass_grid`, `k_grid`, `h_zvec`; ceiling of an exact quotient, powers of ten. | proved |
| C94 | Options that have no effect | agreement on the names that are looked up; evaluation of the example file. | proved |
| C95 | Every halo model parameter gets its own option or block value | inversion of execute to the keywords it passed; dictionaries without repeated keys; decision over the names. | proved |
| C96 | A sampler's call does not depend on the calls before it | invariant over the list of calls: parameters that are not passed keep their defaults; the others are overwritten. | proved |
| C97 | Which options the projection modules accept | case analysis on every option lookup, against vocabulary for well-typed options; the defaults by instantiation. | proved |
| C98 | What the projection modules leave in the block | induction over the loop on bins with the invariant that inputs of later bins are unchanged, even when input and output section coincide; refinement to project and ogata_project. | proved |
| C99 | The projections find the spectra the pipeline module wrote | fold over the log of the pipeline module: each section is written by spectra of one bin only; composed with C98. | proved |
| C100 | The correction undoes the fiducial cosmology of what the projection wrote | induction over the bins of the correction; composed with C98. | proved |
| C101 | Scale cuts keep the data vector, its labels and its covariance in step | each cut is shown to select one sorted list of positions everywhere; closure under composition by induction over the sequence of cuts; the predicate of each cut by a mask computed per spectrum. | proved |
| C102 | The covariance is brought into the order of the measurements | induction over the copied row blocks of the reordering loop, with sections of the header as vocabulary. | proved |
| C103 | The scale-cut options say which points are used | induction over the option list from its end, with the last value of each target as invariant; composed with C101. | proved |
| C104 | Theory and data are compared entry by entry | simulation: every label cut commutes with the filter by statistic, index cuts because one spectrum carries the name; induction over the cuts. | proved |
| C105 | The theory vector reads every bin pair the data block holds | induction over the two nested loops with the first missing bin as bound. | proved |
| C106 | The likelihood of the cut vectors has its maximum at the data | quadratic forms as double sums; the form of a selection is the form of the scattered vector; inverse by substitution y = C^-1 x. | proved |
| C107 | A mock vector written into the file is the vector read back | slices of the vector recombine to the vector, by induction over the spectra. | proved |
| C108 | The observables of a prediction are laid out as the options say | `PredModel.pred_setup`; inversion of the reader chain; linspace as a sum. | proved |
| C109 | A prediction is the observable function at the requested values, averaged over the redshift distribution | induction over the loop on bins with the invariant that names already there keep their values; interpolation from `Interp`, Simpson from `Quad`. | proved |
| C110 | Weighted binning averages the observable function over the galaxies of the bin | sums over a list filtered by an interval; the intervals partition the range; means as weighted sums. | proved |
| C111 | The volume correction is the ratio of the survey volumes | two-run argument: the corrected run simulates the uncorrected one, bin by bin. | proved |
| C112 | The prediction finds the observable functions the pipeline module wrote | induction over the written bins; decimal suffixes are injective. | proved |
| C113 | The two-point likelihood is the Gaussian form of theory minus data | `MiniModel.mini_execute`; block sums recombine to one double sum; the form of an inverse is the form of the covariance by substitution. | proved |
| C114 | Each data file of the two-point likelihood meets one theory bin | insertion sort is a sorted permutation and such a list is unique; induction over the flattened list of bins; inversion of the reader chain. | proved |
| C115 | Interpolated theory is linear in the logarithm of the separation | `Interp` on logarithms against the chord as a relation; two-run simulation for units. | proved |
| C116 | Integrated theory is the trapezoid integral over the bin around each point | edges as a function of the index; trapezoids over a contiguous range of nodes; two-run simulation for units. | proved |
| C117 | Correlated priors are the inputs times the Cholesky root | induction over the writes with the values read first; double sums with the triangular root. | proved |
| C118 | The likelihood finds what the projections and the prediction wrote | composition of C98 and C109 with the lookups of the likelihood. | proved |
| C119 | Resampled spectra are linear in redshift and in the logarithm of the wavenumber | invariants over the loops of jobs (each writes one section, independent of the others), then uniqueness of piecewise linear interpolation. | proved |
| C120 | Red and blue spectra combine with the fractions of their own redshift | the same loop invariants with the combined table; concrete blocks for the refutations. | proved |
| C121 | The combination runs on a complete block and writes only its outputs | independence of the jobs; induction over bins; frame for every outcome. | proved |
| C122 | The legacy combination agrees with UpsampledSpectra at the redshifts of the tables | both sides reduced to interpolation of the same tables; commutation at nodes or for a constant fraction. | proved |
| C123 | Luminosity averages weight each galaxy by Simpson's rule | Simpson's rule on equal spacing as a weighted sum; exchange of the sums over bins and galaxies. | proved |
| C124 | The legacy alignment amplitudes are those of AlignmentAmplitudes | both sides unfolded to the same lists of values; frame and totality lemmas for the list of writes. | proved |
| C125 | The legacy HOD module writes what the class HOD computes | a run is shown to be one list of writes, each name once; the objects of the legacy class are shown to have the fields of the current one, so that the same integrals remain; interpolation at nodes for the observable functions. | proved |
| C126 | The legacy HOD module runs exactly if no occupation is negative | the list of writes succeeds iff its reads do and its names are new; case analysis of the options for setup; the first bin unfolded for the failures. | proved |
| C127 | The legacy radial alignment tables are those of SatelliteAlignment | sampling written as one list of indices for all quantities; the sum over multipoles is that of wkm_f_ell term by term; written names shown distinct, so each table is the one last put; interpolation depends on the nodes only. | proved |
| C128 | The legacy radial alignment module runs for slopes 0 and -2 only | setup by cases of the options; the angular factors have a value iff the slope is 0 or -2; frame, freshness and repetition from the shape of the list of writes; decimal names with different suffixes are different. | proved |
| C129 | The legacy power-spectrum module writes the spectra of Spectra | a run is unfolded into what it read, its list of writes and what is left of it; what is read is shown to be the ingredients of Spectra on its grid, each spectrum is then equal term by term (Simpson sums pointwise); a canonical block, on which the run is carried out, is the concrete case. | proved |
| C130 | The legacy power-spectrum module: options, effects and failures | setup by cases of the options; frame from the sections of the writes; failures by unfolding the first bin; noninterference by two runs in step, the second reading what the first part wrote. | proved |
| C131 | The legacy beta_nl module serves calls from its cache on a fixed schedule | an invariant of the kept state over the list of counted blocks, by induction on the chain of calls; single calls by cases. | proved |
| C132 | The legacy beta_nl table is that of NonLinearBias with the wavenumber last | the two double loops in step, with agreement of finished rows and symmetry as invariant; the least-squares constant by completing the square; the mesh grids as one list of indices. | proved |
| C133 | The legacy halo-model ingredients: every call and every redshift stands alone | an invariant of the mutated halo model (which keys were touched over what setup left) kept by every turn, finished or not; induction over redshifts and over calls. | proved |
| C134 | The legacy halo-model ingredients against HaloModelIngredients | the closed form of the turns set against the closed form of _hmf_generator, row by row; the dark-energy terms by algebra of powers; the bound from the cases of the collapse redshift. | proved |
| C135 | The legacy HOD module without a loop never completes | the arguments of the class computed for every block that has them; the labels by the frame of the writes; the set-up by comparing what the two read. | proved |

## Findings

Places where the code does not do what a reader of its names and documentation would expect. Each is a
machine-checked counterexample (a `..._refuted` theorem) or an exact characterisation in the theorem of the property.

* **C09** The naive expectation (value inside the mass grid) is refuted by C09_below_the_mass_grid_refuted: mass_avg divides the mean mass of centrals by the density of all galaxies.
* **C15** C15_bins_returned_refuted: zip(zmin, zmax, strict=False) drops bins silently. Finding: scalar HOD parameters raise IndexError with two or more bins.
* **C22** Finding: the cross term is counted once while gg counts it twice; C22_square_of_summed_fields_refuted gives a witness.
* **C23** Finding: gi carries the opposite sign of mi; C23_same_sign_refuted gives a witness.
* **C27** Finding: two_halo_ktrunc is never used beyond being None or not; C27_requested_two_halo_scale_refuted.
* **C31** Finding: the even-spacing check never fires (np.isclose of a boolean); C31_uneven_spacing_rejected_refuted.
* **C32** Finding: hmf update() assigns before validating and does not roll back; C32_rejected_update_refuted shows the object left in the rejected configuration, where mm raises UnboundLocalError.
* **C33** Finding: a single-column linear spectrum is accepted when dewiggling, and response-mode mm never looks at the linear spectrum; C33_wrong_shape_always_rejected_refuted.
* **C34** Findings: omega_m is a functools.cached_property, stale after a cosmology update (C34_omega_m_refuted); hmcode_ingredients is not declared a switch, so K misses updates after its branch changed (C34_selector_refuted). The dependency table CacheTable.v is extracted from the source; the hmf caching rules are part of the trusted base.
* **C35** Finding: frac_1, power_1 and power_2 are functools.cached_property and never follow update(); C35_always_current_refuted.
* **C36** Finding: the dictionary of the caller is mutated in place and a requested method is overridden; C36_unchanged_refuted.
* **C37** Findings: identical populations lose power in gg, ii, gi (C37_identical_refuted); the fraction is extrapolated out of [0,1] (C37_fraction_in_unit_interval_refuted).
* **C38** C38_any_fill_refuted: a non-zero fill value breaks the sum outside the redshift range of the model.
* **C39** The linear bias of gg cannot be requested: any other component name raises AttributeError.
* **C40** Finding: when the amplitude needed by sigma_8 is outside the box it is clamped silently and another sigma_8 is used; C40_sigma8_refuted.
* **C42** The Dark Emulator and the quadratic interpolator are arguments. mean of an empty slice (no k in (100,200)) is 0 in the model, nan in numpy; the grid of the code has such k.
* **C44** Finding: np.all in the two-dimensional branch drops the last column of every redshift when a single redshift is tied, and a constant quantity gets a different length than the masses; C44_ties_refuted.
* **C48** The property as first stated (each option gates the parameters of its own galaxy type) is false: the two gates are swapped, `C48_matching_refuted`. The restated property is the exact content.
* **C49** The property as first stated (the spectra depend on both populations) is false: the fraction of the first population is hard-coded to ones, so the second population has weight zero.
* **C50** update_bnl = 0 raises ZeroDivisionError at every call (`C50_zero_period`).
* **C51** Distinct section names are a real hypothesis: nothing in the code stops the HOD sections of the galaxy and alignment samples from being the same, in which case the second overwrites the first.
* **C52** With an observables file the set-up reads a missing key and raises KeyError (`C52_observables_file_refuted`), so galaxy spectra can only be run with explicit limits.
* **C54** The default poisson_type '' raises KeyError whenever galaxies or alignments are requested (`C54_default_poisson_refuted`); with alignments only, the number of bins is 0, so no per-bin parameter is checked and empty arrays are passed on (`C54_alignment_only_refuted`).
* **C55** Finding: values are attached to separations one logarithmic step too small; `C55_own_separation_refuted`.
* **C57** loggamma is an argument. Finding: when both gamma arguments are non-positive integers two or more apart, fhti stores an array in one cell and raises (`C57_two_poles_refuted`). kropt = 3 (interactive) is left out.
* **C58** Finding: the separations are shared and compound over bins; `C58_own_ratio_refuted`.
* **C63** Finding: the coefficients hard-coded for slope 0 are those of slope 1 (C63_slope_0_refuted). The gamma function is an argument with three assumed equations; an instance is constructed.
* **C64** Zero to a negative exponent is inf in the code and the mean nan, so the empty-bin claim is for exponents that are not negative.
* **C65** C65_fftlog_extrapolation_refuted: the linear extrapolation can turn the transform negative.
* **C70** Finding: the documented round trip of fftl does not hold; `C70_fftl_round_trip_refuted`.
* **C72** astropy's densities and equation of state are the fields of `cosmo`; the CPL form is proved to satisfy the law assumed.
* **C73** About exact solutions of the equation the code hands to solve_ivp, not about the integrator or the cubic interpolation of its output.
* **C74** Finding: Dv_Mead and dc_Mead use Omega_nu0/(Omega_m0 + Omega_nu0) as the neutrino fraction, fnu reports Omega_nu0/Omega_m0; `C74_neutrino_fractions`.
* **C76** halomod's update semantics for parameter dictionaries (replace or merge) and model switches are arguments satisfying `setting_law`, `model_law`; both dictionary semantics are instances.
* **C78** root_scalar is an argument satisfying `root_law`.
* **C81** Finding: hod.py documents obs_func as a function per dex; HOD.obs_func is per unit observable (its integral over the observable is the number density) and Spectra.obs_func, ln 10 times the observable times it, is the one per dex.
* **C83** The two transform libraries are arguments; `hankel_law` and `fht_exact` say what integral they return (Coquelicot integral on radii up to X; for truncated profiles any X beyond the virial radius gives the same).
* **C84** Finding: `C84_projection_refuted`: with hankel's current convention (factor r in the transform, which ia.py relies on) pk_to_real_ogata returns rp times the integral of k^2 P J instead of the integral of k P J.
* **C85** `C85_independence_refuted`: with fit ingredients and Cacciato galaxies the matter power changes with the galaxies.
* **C86** The built-in wavenumbers (hmcode recipes, dewiggling, 2-halo truncation) are excluded by `scale_free`.
* **C88** Finding: the profiles are normalised by the first wavenumber of the grid, so the spectra depend on k_min; `C88_any_subgrid_refuted`.
* **C89** `C89_galaxies_refuted`: the mass function is interpolated from the output redshifts to the HOD redshifts, so galaxy densities depend on the output grid.
* **C91** Types are those of cosmosis' block getters; a value numpy would reject later as a count is rejected in the model where it is read.
* **C92** Findings: `C92_all_documented_defaults_refuted` (hod_section_name_ia, _1, _2 and nobs_* have no default in the code) and `C92_none_default_refuted`. module.yaml also names values the code does not know: poisson_type 'scalar' (code: 'constant') and hmcode_ingredients 'fit_feedback' (code: 'fit').
* **C94** Findings: `C94_example_settings_take_effect_refuted`; `C94_output_suffix_takes_effect_refuted` (module.yaml documents output_suffix as the suffix of the HOD outputs).
* **C95** Finding: `C95_every_parameter_can_be_set_refuted` (Neff is never set, so blocks cannot change it). hod_settings after an alignment request is the alignment sample (C69).
* **C96** Spectra is any function of its parameters here; C34 says when a kept object is one.
* **C97** Suffixes are taken as the strings the section names are built from. Empty section names fall back to the defaults too.
* **C98** A section whose shapes do not fit counts as missing. numpy and scipy parts are those of C55-C57 and C84.
* **C99** Assumes that the three user-named sections of the pipeline module are not names of spectra (free_section); values the log only names may leave anything in their own section.
* **C100** Finding (C100_quadrature_refuted): pk_to_real_ogata.py writes save_name = '' so correct_cosmo_real.py always raises on its output. rp is rescaled once per bin (the finding of C58).
* **C101** Finding `C101_scale_refuted`: mask_scale tests `name in spectra_to_cut` with a string, a substring test. Closed limits for a bin pair, open ones for a statistic.
* **C102** The FITS header itself is not modelled: names, lengths and matrix are arguments.
* **C103** Findings `C103_false_refuted`, `C103_four_words_refuted`, `C103_psi_refuted`. Index cuts count entries after the cross-bin and pair cuts; C101 covers them one by one.
* **C104** Findings `C104_order_refuted`, `C104_case_refuted` and the failure of unused index cuts. The order of the cuts relative to the choice does not matter for alignment, contrary to the comment in scale_cuts.py:97-100.
* **C106** np.linalg.inv is an argument; `inverse_of` says it returned an inverse. Finding `C106_broadcast_refuted`.
* **C107** Findings `C107_bins_refuted`, `C107_files_refuted` (wrapper_twopoint.py:259 uses the index of the measurement as the index of the bin).
* **C108** Suffixes are taken as the strings the names are built from; n_obs as integers.
* **C109** Finding `C109_single_redshift_refuted`: scipy's simpson of one sample is 0. put_double_array_1d refuses a name that exists.
* **C110** Findings `C110_redshift_refuted` (the evolution with redshift is ignored) and `C110_lowest_edge_refuted`. An empty bin is 0/0 (an argument in the model).
* **C111** astropy distances and h are arguments; the volume of the data is assumed not to be 0.
* **C112** Finding `C112_default_refuted`: the default suffix '_1' reads obs_val__1.
* **C113** np.linalg.inv is an argument; `inverse_of` says it returned an inverse. Finding `C113_size_refuted`: a covariance for more points than the data is accepted in silence. likenorm and the plots are not modelled.
* **C114** Findings `C114_ten_files_refuted` (lexicographic order of file names), `C114_third_column_refuted` and `C114_pseudo_inverse_refuted` (undefined names at mini_2pt_like.py). glob, np.genfromtxt and np.linalg.inv are arguments.
* **C115** Theory and data separations are assumed positive and increasing (`sane`).
* **C116** Findings `C116_constant_refuted` (an integral where a mean is wanted), `C116_single_node_refuted`, `C116_units_refuted`.
* **C117** np.linalg.cholesky is an argument; `root_of` says it returned the root. Finding `C117_no_partial_write_refuted`.
* **C118** Finding `C118_other_name_refuted`: the projection option output_section_name with any name but wp or ds cannot feed the likelihood.
* **C119** The sign flip of negative spectra has no effect: the interpolation is linear in the spectrum, not in its logarithm.
* **C120** Findings `C120_same_population_refuted` (splitting one population in two changes its spectrum) and `C120_positive_refuted` (the fraction is extrapolated beyond the file without a bound).
* **C121** Finding: with the default empty input_power_suffix_extrap the output name is the input name, so the result depends on put_grid replacing an existing table (quantified: `over`). The bare except around the mead resampling hides every failure there.
* **C122** Finding `C122_same_refuted`: between the redshifts of the tables the two implementations give 1/2 and 1/4.
* **C123** Finding `C123_normalised_refuted`: with one galaxy per redshift and exponent zero the amplitude comes back as two thirds of itself, because a histogram with narrow bins is integrated by Simpson's rule.
* **C124** Findings: centrals and satellites share one pivot; a missing pivot is a ValueError for centrals and a missing name for satellites; `C124_failing_writes_refuted`: a failing run can leave the centrals written.
* **C125** Finding `C125_average_mass_refuted`: average_halo_mass of the module is the mean mass of the centrals' halos, avg_halo_mass_cen of the class the integral without the division by the density (4/3 against 1 for two halos).
* **C126** Findings: `C126_relation_refuted`: mean_obs_halo_mass_relation has one value whatever the number of masses (.T[0] of an array of shape (1, mass)); `C126_limits`: the branch with mass limits uses pickle, which is not imported; a file with one row is an IndexError.
* **C127** Finding `C127_ties_refuted`: with equal virial radii the class samples fewer radii than masses (see C44); the module compares masses only. The class fixes kmin, kmax and nk; the module reads them, and the statement is about the module's wavenumbers.
* **C128** Findings: `C128_slope_refuted`: a slope other than 0 and -2 is a TypeError (calculate_f_ell looks the slope up in a table of two at theta = pi/2 and indexes the None it gets), so the documented free slope cannot be used; `C128_negative_refuted`: nmass = -2 of four masses gives the fourth, second and fourth.
* **C129** Finding `C129_intrinsic_refuted`: the two-halo table of the intrinsic spectrum is not that of Spectra. Outside the agreement: beta_nl at the least mass must not depend on the order of the masses (the modules swap the two indices), bnl or Mead together with Fortuna has no mode of Spectra, and the block's linear power is interpolated in logarithms here.
* **C130** Findings: galaxy spectra alone fail with an unbound profile; the default of the Poisson factor never applies, since the value is read before it; with p_mm and Fortuna the effective power uses the halo-model spectrum written moments before, not the non-linear power given.
* **C131** Finding `C131_stale_refuted`: with update_bnl = 2 the second call of a chain writes the table of the first, although its own block gives values of the other sign.
* **C132** Findings: `C132_class_layout_refuted`: with as many wavenumbers as masses the array of bnl_interface_class.py is read with the axes confused; `C132_cosmology_refuted`: in a flat universe inside the emulator's range the two modules give the emulator different dark energy.
* **C133** Findings: a misspelt correction name such as 'Mead2020' is silently none; with corrections the overdensity depends on redshift, yet one virial radius, that of the first redshift, is written for all.
* **C134** Findings: with corrections the two codes treat satellites differently (eta_sat and norm_sat of the block against the fitted bloating and K), norm_cen and eta_cen are read and ignored, and nfw_scale_radius is not the virial radius over the written concentration.
* **C135** Finding: the module fails on every block (C135_never), because it names the halo bias halobias. That hmf's Component refuses unknown names is the hypothesis `strict` of the theorems, not part of the model; everything after the class is made is an argument.

## What is modelled and what is not

| source | modelled in | not modelled |
|--------|-------------|--------------|
| `src/onepower/hod.py` | `HodModel.v` (all five HODs, number densities, bias, fractions, observables grid, assembly bias) | docstrings, property plumbing |
| `src/onepower/pk.py` | `PkModel.v`, `Dewiggle.v` (all spectra, all modes, integrals, truncations, feedback, Poisson, dewiggling); `ObsModel.v` (observable functions); `CacheModel.v`/`CacheTable.v` (caching); `Validate.v` (options, shapes) | the Fourier transform of the NFW profile (argument), neutrino arrays beyond their factor |
| `src/onepower/add.py` | `AddModel.v` (UpsampledSpectra: caching, mixing, regridding) | - |
| `src/onepower/ia.py` | `IaModel.v` (amplitudes, luminosity tables, multipoles, angular coefficients, radial profile, downsampling, upsampling) | in `IaModel.v` the transform of the radial profile is an argument `u`; `UellModel.v` models both transform methods around the library calls hankel.HankelTransform, scipy.fft.fht and loggamma, which are arguments |
| `src/onepower/bnl.py` | `BnlModel.v` (clamping, emulator call sequence, truncations, envelopes, smoothing, double loop, nearest lookup, table) | the Dark Emulator and scipy's quadratic interpolation (arguments) |
| `cosmosis_modules/onepower_interface.py` | `PipeModel.v` (interpolation helpers, HOD settings, parameter collection, alignment dictionaries, `execute` with its writes and state, per-bin output), `OptModel.v` (option reading: setup and everything it calls, lines 40-59, 102-363 and 582-681, and the grids), `KwModel.v` (the keyword arguments of Spectra, lines 729-844, 891-903 and 965-971, and the object as a store of parameters with hmf's `update`) |  the parsing of the ini file into typed values is cosmosis'; the grid axes written beside each table (z, k_h, z_bin) are not in the log; the spectra object is an argument (`ext`, or in KwModel a function of its parameters); t_eff is read before the alignment parameters rather than after, and obs_settings lacks the two entries save_observable and observable_section_name, which Spectra ignores |
| `cosmosis_modules/pk_to_real/pyfftlog.py` | `FftModel.v` (fhti, fhtq, fht, fftl, krgood; numpy's rfft/irfft written out as sums in the fftpack layout; arrays whose cells may be uninitialised) | `loggamma` is an argument (two functions, real and imaginary part); `kropt = 3` asks on the terminal and is left out; a division by zero is Coq's total inverse |
| `cosmosis_modules/pk_to_real/pk_to_real.py` | `RsModel.v` (LogInterp, Transformer, CosmosisTransformer: sections, densities, projection, outputs), `ChainModel.v` (setup, options, what is read from and written to the data block) | suffixes are taken as strings; a section whose shapes do not fit counts as missing; entry names are compared as written (the module only uses lower-case ones) |
| `cosmosis_modules/pk_to_real/pk_to_real_ogata.py` | `OgataModel.v` (projected_corr, projection), `ChainModel.v` (setup, options, the data block) | hankel.HankelTransform is an argument; as above |
| `cosmosis_modules/pk_to_real/correct_cosmo_real.py` | `RsModel.v` (`correct`), `ChainModel.v` (execute on a data block) | astropy's distances are the fields of `cosmo`; the data cosmology built from `cosmo_kwargs` is an argument |
| `cosmosis_modules/convert_theta/convert_theta.py` | `RsModel.v` (`theta_setup`, `theta_execute`) | units other than the four angle units are an argument |
| `src/onepower/hmi.py` | `HmiModel.v` (background functions, growth equation, Mead fits, ingredient selection, `_hmf_generator` with its in-place updates, accessors, K, cold ratio, variance, collapse redshifts) | solve_ivp, cubic interp1d, quad and root_scalar numerics; astropy, hmf, halomod and colossus internals; grid and transfer parameters passed through unread |
| `cosmosis_modules/legacy/scale_cuts/*.py`, `legacy/utils/mini_like.py` | `TpModel.v` (measurements, covariance reordering, all cuts used by the module, option parsing, labels, theory vector, mock vectors, Gaussian likelihood) | FITS reading and writing, kernels, units, windows, angle_min/max, plots, SpectrumCovarianceBuilder, reorder_canonical and the other methods of twopoint.py the module never calls; int(), float(), np.linalg.inv and the random draw of a mock are arguments |
| `cosmosis_modules/legacy/predict_observable/predict_observable.py`, `onepower_interface.py:505-571` | `PredModel.v` (options, observable grids, loading, interpolation, binning, redshift average, volume correction, writing) | ast.literal_eval of cosmo_kwargs and the astropy classes (arguments: distances and h); the bare except of weighted binning is modelled by whether a distribution file was given; ragged tables |
| `cosmosis_modules/legacy/likelihood_ds_wp/mini_2pt_like.py`, `legacy/utils/correlated_priors.py` | `MiniModel.v` (file order, columns, covariance blocks, edges, theory points in both modes, chi-square, writing; priors: words, product, writing) | plots, likenorm and correlation matrix (returned, never used), exclude (always None), units other than a conversion function; np.linalg.inv and cholesky are arguments |
| `cosmosis_modules/legacy/add_and_upsample/add_and_upsample.py` | `AupModel.v` (sign flip, resampling, combination, setup, all loops over bins, writing) | whether put_grid replaces an existing table is an argument; loadtxt is an argument; decreasing axes, on which interp1d sorts; extrapolate_nan, never called |
| `cosmosis_modules/legacy/ia/ia_amplitudes.py` | `LiaModel.v` (setup, execute, every branch) | FITS reading (an argument); nan and inf of zero to a negative power; case folding of block names |
| `cosmosis_modules/legacy/hod/hod_interface.py`, `hod_lib_class.py` | `LhModel.v` (setup, load_data, execute, all three modes; formulas at one mass and observable are those of `HodModel.v`) | the classes Simple and Zehavi, which the module cannot select; loadtxt and open (arguments); whether put_grid replaces an existing table is an argument; booleans of the block are integers; shapes interp1d would refuse are refused before the bin is written |
| `cosmosis_modules/legacy/hod/hod_interface_no_loop.py` | `LnModel.v` (setup; execute up to the making of the first HOD object) | everything after it, which no run reaches (an argument); load_hods, which nothing calls; hmf's Component (an argument) |
| `cosmosis_modules/legacy/ia/ia_radial_interface.py`, `ia_radial_lib.py`; `get_satellite_alignment` of `legacy/pk/pk_util.py` | `LrModel.v` (setup, downsampling, multipoles, angular factors, writing; reading back) | the Hankel transform (an argument); the functions of ia_radial_lib.py no module calls; more than one axis of angles; whether put_grid replaces an existing table is an argument |
| `cosmosis_modules/legacy/pk/pk_interface.py`, `pk_lib.py` | `LkModel.v` (setup, execute, all six spectra, profiles, biases, response, beta_nl, Fortuna, Mead) | the de-wiggling and the alignment upsampling's FFT are arguments or earlier models; arrays kept in memory are an argument; whether put_grid replaces an existing table is an argument; warnings and prints |
| `cosmosis_modules/legacy/bnl/bnl_interface.py`, `bnl_util.py`, `bnl_interface_class.py`, `legacy/bnl_delete/bnl_interface_delete.py` | `LbModel.v` (setup, execute with its cache, table, deletion) | the Dark Emulator, curve_fit and the quadratic interpolation (arguments); the entry of the block with four axes is an argument; rvir and values overwritten before their use; messages |
| `cosmosis_modules/legacy/halo_model_ingredients/halo_model_ingredients_halomod.py`, `halo_model_utility.py` | `LgModel.v` (setup, execute with the halo model it carries, growth equation, fits, concentrations, tables written) | hmf, halomod, astropy, solve_ivp and root_scalar (arguments); the cosmology among the profile parameters; the class behind the name of a concentration relation; the order of the writes; halo_model_ingredients_halomod_class_interface.py, concentration_halomod and acceleration_parameter |

## Print Assumptions, theorem by theorem

F = `ClassicalDedekindReals.sig_forall_dec`, N = `ClassicalDedekindReals.sig_not_dec`,
E = `FunctionalExtensionality.functional_extensionality_dep`, C = `Classical_Prop.classic`; `-` = closed under the global
context. All four are standard-library axioms; nothing else is assumed anywhere.

| theorem | axioms |
|---------|--------|
| `C01_simpson_linear` | F E |
| `C01_simpson_exact_parabola` | F N C E |
| `C01_simpson_two_points_exact_affine` | F N C E |
| `C02_integral_nonneg_on_log_uniform_grid` | F E |
| `C02_integral_monotone` | F E |
| `C02_coarse_grid_refuted` | F E |
| `C03_fixed_weights_are_trapezoid` | F E |
| `C03_exact_for_affine` | F N C E |
| `C03_weights_sum_to_range` | F E |
| `C03_nonneg` | F E |
| `C03_rejects_short_grids` | F E |
| `C04_node` | F E |
| `C04_between_neighbours` | F E |
| `C04_exact_for_affine` | F E |
| `C04_linear_in_data` | F E |
| `C04_fill_outside` | F E |
| `C04_fill_pair_outside` | F E |
| `C04_fill_irrelevant_inside` | F E |
| `C04_strict_raises_outside` | F E |
| `C04_chord` | F E |
| `C05_total_occupation` | F N C E |
| `C06_number_densities_add` | F N C E |
| `C06_number_density_is_the_mass_integral` | F N C E |
| `C06_number_density_nonneg` | F N C E |
| `C07_fractions_sum_to_one` | F N C E |
| `C07_fractions_in_unit_interval` | F N C E |
| `C07_fractions_vanish_outside` | F N C E |
| `C07_fractions_are_density_ratios` | F N C E |
| `C08_bias_adds` | F N C E |
| `C08_bias_between_halo_biases` | F N C E |
| `C08_bias_constant` | F N C E |
| `C08_bias_is_the_weighted_integral` | F N C E |
| `C09_mean_halo_mass_bounded` | F N C E |
| `C09_mean_halo_mass_value` | F N C E |
| `C09_below_the_mass_grid_refuted` | F N C E |
| `C10_central_occupation_is_a_probability` | F N C E |
| `C10_central_occupation_monotone` | F N C E |
| `C10_half_at_Mmin` | F N C E |
| `C10_step_at_Mmin` | F N C E |
| `C11_satellites_nonneg` | F N C E |
| `C11_satellites_monotone` | F N C E |
| `C11_zheng_cutoff` | F N C E |
| `C11_zheng_above_cutoff` | F N C E |
| `C11_simple_cutoff` | F N C E |
| `C11_zehavi_unit_at_Msat` | F N C E |
| `C11_zehavi_power_law` | F N C E |
| `C11_simple_is_zehavi_above_Mmin` | F N C E |
| `C11_zhai_is_damped_zehavi` | F N C E |
| `C12_zheng_without_scatter_has_zehavi_centrals` | F N C E |
| `C12_zheng_satellites_tend_to_zehavi` | F N C E |
| `C13_central_decoration_neutral_at_zero` | F N C E |
| `C13_satellite_decoration_scales` | F N C E |
| `C13_satellite_decoration_neutral_at_zero` | F N C E |
| `C13_decoration_preserves_probability` | F N C E |
| `C13_central_decoration_value` | F N C E |
| `C13_step_models_ignore_central_decoration` | F N C E |
| `C14_obs_func_splits` | F N C E |
| `C14_stellar_fraction_splits` | F N C E |
| `C14_obs_func_nonneg` | F N C E |
| `C14_stellar_fraction_nonneg` | F N C E |
| `C14_cacciato_centrals_are_lognormal` | F N C E |
| `C14_cacciato_satellites_are_schechter` | F N C E |
| `C14_obs_func_integrates_over_haloes` | F N C E |
| `C14_central_distribution_function` | F N C E |
| `C14_stellar_fraction_is_mean_observable_over_mass` | F N C E |
| `C14_stellar_fraction_units` | F N C E |
| `C15_observable_range` | F N C E |
| `C15_observable_range_from_file` | F N C E |
| `C15_observables_increasing` | F N C E |
| `C15_redshift_range` | F E |
| `C15_bins_returned` | F N C E |
| `C15_bins_returned_refuted` | F N C E |
| `C15_scalar_parameters_rejected` | F N C E |
| `C16_galaxy_and_alignment_totals_add_up` | F N C E |
| `C16_matter_total_adds_up` | F N C E |
| `C17_clustering_is_bias_squared` | F N C E |
| `C17_bias_is_the_hod_bias` | F N C E |
| `C18_two_halo_terms_consistent` | F N C E |
| `C19_large_scales_are_linear` | F N C E |
| `C19_first_wavenumber_is_linear` | F N C E |
| `C20_central_matter_alignment` | F N C E |
| `C20_central_alignment_autopower` | F N C E |
| `C20_default_and_fortuna_agree` | F N C E |
| `C21_alignment_spectra_scale` | F N C E |
| `C21_zero_amplitude_vanishes` | F N C E |
| `C21_other_spectra_unaffected` | F N C E |
| `C22_central_satellite_cross_term` | F N C E |
| `C22_cross_spectra_are_sums` | F N C E |
| `C22_square_of_summed_fields_refuted` | F N C E |
| `C23_signs_in_default_mode` | F N C E |
| `C23_signs_in_fortuna_mode` | F N C E |
| `C23_physical_samples_qualify` | F N C E |
| `C23_same_sign_refuted` | F N C E |
| `C24_matter_is_the_nonlinear_power` | F N C E |
| `C24_common_rescaling` | F N C E |
| `C25_correction_is_bilinear` | F E |
| `C25_correction_is_symmetric` | F E |
| `C25_constant_correction` | F E |
| `C25_zero_table_is_the_default_mode` | F N C E |
| `C25_where_the_correction_enters` | F N C E |
| `C25_where_the_correction_enters_alignment` | F N C E |
| `C26_hmcode_total` | F N C E |
| `C26_hmcode_terms` | F N C E |
| `C26_transition_properties` | F N C E |
| `C27_factors_are_dampings` | F N C E |
| `C27_scales_mean_what_they_say` | F N E |
| `C27_hmcode_half_damping` | F N C E |
| `C27_one_halo_truncation_acts` | F N C E |
| `C27_two_halo_truncation_acts` | F N C E |
| `C27_requested_two_halo_scale_refuted` | F N C E |
| `C28_effective_power_is_a_mixture` | F N C E |
| `C28_absent_in_other_modes` | F N C E |
| `C29_gas_fraction` | F E |
| `C29_simulation_gas_fraction` | F N C E |
| `C29_matter_budget_fitted_feedback` | F E |
| `C29_matter_budget_simulated_feedback` | F N C E |
| `C30_constant` | F N C E |
| `C30_power_law` | F N C E |
| `C30_incomplete_rejected` | F N C E |
| `C31_dewiggled_power` | F N C E |
| `C31_smooth_power_unchanged` | F N C E |
| `C31_ratio_to_smooth_power_bounded` | F N C E |
| `C31_spacing_check` | F E |
| `C31_uneven_spacing_rejected_refuted` | F N C E |
| `C31_damping` | F N C E |
| `C32_construction` | - |
| `C32_updates` | - |
| `C32_update_exact` | - |
| `C32_rejected_update_refuted` | F N C E |
| `C32_spectra_defined` | F N C E |
| `C32_alignment_options` | - |
| `C33_linear_shape_checked` | F N C E |
| `C33_linear_shape_checked_dewiggled` | F N C E |
| `C33_nonlinear_shape_checked` | F E |
| `C33_spectra_use_the_checked_arrays` | F N C E |
| `C33_wrong_shape_always_rejected_refuted` | F N C E |
| `C34_reads_end` | - |
| `C34_independent` | - |
| `C34_no_feedback` | - |
| `C34_cosmology_kept` | - |
| `C34_omega_m_refuted` | - |
| `C34_selector_refuted` | - |
| `C35_fresh_while_unchanged` | F N C E |
| `C35_pinned_after_first_use` | F N C E |
| `C35_update_ignored` | F N C E |
| `C35_new_length_raises` | F N C E |
| `C35_one_redshift_fraction_sticks` | F N C E |
| `C35_always_current_refuted` | F N C E |
| `C36_shared_dictionaries` | - |
| `C36_attached` | - |
| `C36_unchanged_refuted` | - |
| `C37_mixing` | F N C E |
| `C37_limits` | F N C E |
| `C37_one_population` | F N C E |
| `C37_fractions_are_complementary` | F E |
| `C37_fraction_at_nodes` | F E |
| `C37_identical_refuted` | F N C E |
| `C37_fraction_in_unit_interval_refuted` | F E |
| `C38_sums_kept` | F N C E |
| `C38_sums_kept_single` | F N C E |
| `C38_own_grid` | F N C E |
| `C38_exact_when_bilinear` | F N C E |
| `C38_any_fill_refuted` | F N C E |
| `C39_stores_what_was_asked` | F N C E |
| `C39_one_call` | F N C E |
| `C39_unknown_component_raises` | F N C E |
| `C40_clamped` | F E |
| `C40_emulator` | F N C E |
| `C40_sigma8` | F N C E |
| `C40_sigma8_refuted` | F N C E |
| `C41_truncations` | F N C E |
| `C42_indexing` | F N C E |
| `C42_redshifts` | F N C E |
| `C42_loop` | F N C E |
| `C42_lookup` | F N C E |
| `C42_nearest` | F E |
| `C43_multipoles` | - |
| `C43_lookups_in_bounds` | F N E |
| `C43_transform` | F N E |
| `C43_limit_needed` | F N E |
| `C44_pass_or_reject` | - |
| `C44_end_points` | F E |
| `C44_same_indices` | F E |
| `C44_ties_refuted` | F E |
| `C45_broken_power_law` | F N C E |
| `C45_averages` | F N C E |
| `C45_mean_is_integral` | F N C E |
| `C46_central` | F N C E |
| `C46_satellite` | F N C E |
| `C46_sign` | F N C E |
| `C47_shear_profile` | F N C E |
| `C47_truncation` | F N C E |
| `C47_mass_normalisation` | F N C E |
| `C48_first_population` | F |
| `C48_second_population` | F |
| `C48_required` | F |
| `C48_matching_refuted` | F |
| `C49_value_of_first` | F N C E |
| `C49_second_has_no_effect` | F N C E |
| `C50_schedule` | F N C E |
| `C50_every_call_is_a_step` | F N C E |
| `C50_zero_period` | F N C E |
| `C51_suffix` | - |
| `C51_distinct_bins` | - |
| `C51_distinct_quantities` | - |
| `C51_run_writes_each_place_once` | F N C E |
| `C52_single_bin_covers` | F E |
| `C52_limits_accepted` | F E |
| `C52_observables_file_refuted` | - |
| `C53_positive` | F N C E |
| `C53_nodes` | F N C E |
| `C53_power_laws` | F N C E |
| `C53_within_range` | F N C E |
| `C54_hod_collection` | - |
| `C54_poisson_collection` | - |
| `C54_aborts_before_output` | F N C E |
| `C54_default_poisson_refuted` | - |
| `C54_alignment_only_refuted` | - |
| `C55_value` | F N C E |
| `C55_mode` | F N C E |
| `C55_set_up` | F N C E |
| `C55_own_separation_refuted` | F N C E |
| `C56_sign` | F N C E |
| `C56_nodes` | F N C E |
| `C56_power_law` | F N C E |
| `C56_scaling` | F N C E |
| `C56_within` | F N C E |
| `C57_initialised` | F N C E |
| `C57_never_fails` | F N C E |
| `C57_linear` | F N C E |
| `C57_kr` | F N C E |
| `C57_two_poles_refuted` | F N C E |
| `C58_bins` | F E |
| `C58_values` | F E |
| `C58_same_cosmology` | F E |
| `C58_chain` | F E |
| `C58_rejected` | F E |
| `C58_own_ratio_refuted` | F E |
| `C59_round_trip` | F N E |
| `C59_via` | F N E |
| `C59_same_angle` | F N E |
| `C59_degrees` | F N E |
| `C59_output_units` | - |
| `C60_matter_one_halo` | F N C E |
| `C60_clustering_one_halo` | F N C E |
| `C60_galaxy_matter_one_halo` | F N C E |
| `C60_alignment_one_halo` | F N C E |
| `C61_clustering_two_halo` | F N C E |
| `C61_galaxy_matter_two_halo` | F N C E |
| `C61_matter_two_halo` | F N C E |
| `C62_default_gas_mass_leaves_all_gas` | F E |
| `C63_general_formula` | F N C E |
| `C63_used` | F N C E |
| `C63_slope_minus_2` | F N C E |
| `C63_slope_0_refuted` | F N C E |
| `C64_redshift_bins` | F E |
| `C64_luminosity_bins` | F E |
| `C64_distribution` | F N C E |
| `C65_hankel` | F N C E |
| `C65_fftlog` | F E |
| `C65_fftlog_extrapolation_refuted` | F E |
| `C65_grid` | F N C E |
| `C66_smoothing` | F N C E |
| `C66_calibration` | F N C E |
| `C66_linear` | F N E |
| `C66_envelopes` | F E |
| `C66_chunks` | F E |
| `C67_minimum_halo` | F N C E |
| `C67_rvir` | F N C E |
| `C67_grids` | F N C E |
| `C68_redshift_interpolation` | F E |
| `C69_outputs` | F N C E |
| `C69_nothing_else` | F N C E |
| `C69_history_free` | F N C E |
| `C70_modes` | F N C E |
| `C70_powers` | F N C E |
| `C70_kernel` | F N C E |
| `C70_inverse` | F N C E |
| `C70_orthogonal` | F N C E |
| `C70_fftl` | F N C E |
| `C70_fftl_round_trip_refuted` | F N C E |
| `C71_value` | F N C E |
| `C71_separable` | F N C E |
| `C71_no_overlap` | F N C E |
| `C71_own_inputs` | F N C E |
| `C71_no_bins` | F N C E |
| `C72_acceleration_equation` | F N C E |
| `C72_expansion_today` | F E |
| `C72_matter_fraction_is_a_fraction` | F E |
| `C73_growth_positive_and_increasing` | F N C E |
| `C73_growth_rate_between_zero_and_one` | F N C E |
| `C73_growth_is_suppressed` | F N C E |
| `C73_accumulated_growth` | F N C E |
| `C74_eds_growth` | F N C E |
| `C74_eds_collapse` | F N C E |
| `C74_neutrino_fractions` | F E |
| `C74_reported_fnu` | F E |
| `C75_hmcode_overrides` | F N C E |
| `C75_other_ingredients` | F N C E |
| `C75_settings_of_every_redshift` | F N C E |
| `C76_redshifts_do_not_influence_each_other` | F N C E |
| `C76_accessor_rows` | F N C E |
| `C76_when_it_fails` | F N C E |
| `C77_no_feedback` | F N C E |
| `C77_feedback_decreases_with_redshift` | F N C E |
| `C77_feedback_decreases_with_temperature` | F N C E |
| `C77_feedback_below_gravity_only` | F N C E |
| `C78_formation_not_after_observation` | F E |
| `C78_massive_haloes_form_later` | F E |
| `C78_when_it_fails` | F E |
| `C79_no_neutrinos` | F N C E |
| `C79_cold_ratio_bounded` | F N C E |
| `C79_cold_ratio_increases_with_k` | F N C E |
| `C79_continuous_at_zero_mass` | F N C E |
| `C80_variance` | F N C E |
| `C80_scales_with_amplitude` | F N C E |
| `C80_monotone_in_power` | F N C E |
| `C81_observable_function_integrates_to_number_density` | F N C E |
| `C81_observable_function_ignores_decoration` | F N C E |
| `C81_spectra_function_integrates_to_number_density` | F N C E |
| `C81_central_function_is_per_dex` | F N C E |
| `C81_satellite_function_is_per_dex` | F N C E |
| `C81_spectra_function_splits` | F N C E |
| `C81_spectra_function_nonneg` | F N C E |
| `C81_axes_are_the_observable_settings` | F N C E |
| `C81_none_unless_requested_for_cacciato` | F N C E |
| `C82_slope_between_the_two_power_laws` | F N C E |
| `C82_mean_observable_increases` | F N C E |
| `C82_low_mass_slope_is_g1` | F N C E |
| `C82_high_mass_slope_is_g2` | F N C E |
| `C82_one_central_per_halo` | F N C E |
| `C82_mean_relation_is_the_median` | F N C E |
| `C83_hankel_method_is_the_bessel_moment` | F N C E |
| `C83_fftlog_method_is_the_bessel_moment` | F N C E |
| `C83_methods_agree` | F N C E |
| `C83_fftlog_between_its_nodes` | F N C E |
| `C83_wavenumbers_inside_the_grid` | F N C E |
| `C83_grids_are_reciprocal` | F N C E |
| `C83_grid_step` | F N C E |
| `C83_bias_in_the_convergence_strip` | F E |
| `C83_bounded_by_the_shear_cap` | F N C E |
| `C83_flat_shear_factors` | F N C E |
| `C83_proportional_to_amplitude_below_the_cap` | F N C E |
| `C84_setup` | F N C E |
| `C84_grid` | F N C E |
| `C84_separations_increase` | F N C E |
| `C84_output_range` | F N E |
| `C84_plain_transform_gives_projection` | F N E |
| `C84_hankel_transform_value` | F N E |
| `C84_projection_refuted` | F N C E |
| `C84_value_depends_on_separation_only` | F N E |
| `C84_bins` | F N E |
| `C84_total` | F N E |
| `C84_own_inputs` | F N E |
| `C84_no_bins` | F N E |
| `C85_matter_power_ignores_galaxies` | F N C E |
| `C85_alignment_changes_only_alignment_spectra` | F N C E |
| `C85_independence_refuted` | F N C E |
| `C86_spectra_scale_as_volumes` | F N C E |
| `C86_matter_spectrum_scales_as_volume` | F N C E |
| `C87_galaxy_power_under_abundance` | F N C E |
| `C87_cross_power_under_abundance` | F N C E |
| `C87_alignment_power_under_abundance` | F N C E |
| `C87_galaxy_statistics_under_abundance` | F N C E |
| `C88_spectra_do_not_depend_on_other_wavenumbers` | F N C E |
| `C88_matter_spectrum_does_not_depend_on_other_wavenumbers` | F N C E |
| `C88_profile_for_another_first_wavenumber` | F E |
| `C88_any_subgrid_refuted` | F N C E |
| `C89_matter_spectrum_does_not_depend_on_other_redshifts` | F N C E |
| `C89_spectra_given_same_interpolated_mass_function` | F N C E |
| `C89_spectra_when_hod_redshifts_are_kept` | F N C E |
| `C89_galaxies_refuted` | F N C E |
| `C90_each_bin_is_computed_alone` | F N C E |
| `C90_matter_spectrum_of_each_bin` | F N C E |
| `C91_setup_succeeds_iff` | F N C E |
| `C91_requests_are_the_flags` | F N C E |
| `C91_bins_are_the_limits_given` | F N C E |
| `C91_request_settings_are_the_options` | F N C E |
| `C91_ingredient_settings_are_the_options` | F N C E |
| `C91_galaxy_settings_are_the_options` | F N C E |
| `C92_documented_defaults_are_the_defaults` | F N C E |
| `C92_documented_none_is_the_default` | F N C E |
| `C92_none_default_refuted` | F N C E |
| `C92_all_documented_defaults_refuted` | F N C E |
| `C93_mass_grid` | F N C E |
| `C93_redshift_grid` | F N C E |
| `C93_wavenumber_grid` | F N C E |
| `C94_only_needed_options_matter` | F N C E |
| `C94_unknown_options_are_ignored` | F N C E |
| `C94_example_settings_take_effect_refuted` | F N C E |
| `C94_output_suffix_takes_effect_refuted` | F N C E |
| `C95_parameters_are_options_and_block_values` | F N C E |
| `C95_galaxy_and_alignment_parameters` | F N C E |
| `C95_grids_and_power_spectra` | F N C E |
| `C95_unreadable_blocks_are_rejected` | F N C E |
| `C95_bnl_uses_the_same_cosmology` | F N C E |
| `C95_keywords_are_parameters` | F N C E |
| `C95_every_parameter_can_be_set_refuted` | F N C E |
| `C96_calls_have_no_memory` | F N C E |
| `C96_bnl_memory_is_the_table` | F N C E |
| `C97_fft_setup` | F N C E |
| `C97_quad_setup` | F N C E |
| `C97_type` | F N C E |
| `C97_defaults` | F N C E |
| `C98_fft` | F N C E |
| `C98_quad` | F N E |
| `C98_fft_succeeds` | F N C E |
| `C98_quad_succeeds` | F N E |
| `C98_failure_is_local` | F N C E |
| `C98_no_bins` | F N C E |
| `C99_sections` | F N C E |
| `C99_matched` | F N C E |
| `C99_projected` | F N C E |
| `C99_unmatched` | F N C E |
| `C100_after_fft` | F N C E |
| `C100_needs_cosmology` | F E |
| `C100_quadrature_refuted` | F N E |
| `C101_aligned` | F E |
| `C101_cross` | - |
| `C101_bad` | F E |
| `C101_scales` | F E |
| `C101_scale` | F E |
| `C101_indices` | - |
| `C101_choose` | - |
| `C101_total` | F E |
| `C101_indices_total` | - |
| `C101_scale_refuted` | F E |
| `C102_blocks` | F |
| `C102_total` | F |
| `C102_file` | F N E |
| `C103_options` | - |
| `C103_ignored` | - |
| `C103_points` | F E |
| `C103_no_stats` | F E |
| `C103_false_refuted` | F |
| `C103_four_words_refuted` | - |
| `C103_psi_refuted` | - |
| `C104_aligned` | F N C E |
| `C104_unused` | F N C E |
| `C104_order_refuted` | F N C E |
| `C104_case_refuted` | F N C E |
| `C105_lensing` | F N C E |
| `C105_pairs` | F N C E |
| `C105_order` | F N C E |
| `C105_no_bins` | F N C E |
| `C105_band` | F N C E |
| `C106_formula` | F E |
| `C106_best` | F E |
| `C106_covariance` | F E |
| `C106_mismatch` | F E |
| `C106_broadcast_refuted` | F E |
| `C107_replace` | - |
| `C107_bins_refuted` | F |
| `C107_files_refuted` | F |
| `C108_grids` | F N C E |
| `C108_rejects` | F N C E |
| `C109_flat` | F N C E |
| `C109_redshift` | F N C E |
| `C109_average` | F N C E |
| `C109_says` | F E |
| `C109_frame` | F N C E |
| `C109_runs` | F N C E |
| `C109_runs_tables` | F N C E |
| `C109_once` | F N C E |
| `C109_single_redshift_refuted` | F N C E |
| `C110_file` | F N C E |
| `C110_grid` | F N C E |
| `C110_bounds` | F N C E |
| `C110_conserved` | F N C E |
| `C110_redshift_refuted` | F N C E |
| `C110_lowest_edge_refuted` | F E |
| `C111_ratio` | F N C E |
| `C111_same` | F N C E |
| `C111_limits` | F N C E |
| `C112_tables` | - |
| `C112_flat` | - |
| `C112_default_refuted` | F N C E |
| `C113_likelihood` | F N C E |
| `C113_likelihood_bins` | F N C E |
| `C113_maximum` | F E |
| `C113_small_covariance` | F N C E |
| `C113_size_refuted` | F N C E |
| `C113_failure` | F N C E |
| `C114_order` | F N C E |
| `C114_settings` | F N C E |
| `C114_count` | F N C E |
| `C114_runs` | F N C E |
| `C114_runs_bins` | F N C E |
| `C114_ten_files_refuted` | - |
| `C114_third_column_refuted` | F N C E |
| `C114_pseudo_inverse_refuted` | F N C E |
| `C115_unique` | F N C E |
| `C115_log_linear` | F N C E |
| `C115_nodes` | F N C E |
| `C115_bounds` | F N C E |
| `C115_not_covered` | F N C E |
| `C115_units` | F N C E |
| `C116_edges` | F N C E |
| `C116_constant_refuted` | F N E |
| `C116_units_refuted` | F N C E |
| `C116_single_node_refuted` | F N C E |
| `C117_product` | F |
| `C117_triangular` | F E |
| `C117_chi_square` | F E |
| `C117_covariance` | F E |
| `C117_options` | - |
| `C117_options_needed` | - |
| `C117_size` | F |
| `C117_no_partial_write_refuted` | F |
| `C118_projection` | F N C E |
| `C118_prediction` | F N C E |
| `C118_other_name_refuted` | F N C E |
| `C119_extrapolated` | F N C E |
| `C119_matter` | F N C E |
| `C119_determined` | F N C E |
| `C119_nodes` | F N C E |
| `C120_combined` | F N C E |
| `C120_fraction` | F E |
| `C120_same_population_refuted` | F N C E |
| `C120_positive_refuted` | F N C E |
| `C121_runs` | F N C E |
| `C121_needs` | F N C E |
| `C121_frame` | F N C E |
| `C121_bins_differ` | F N C E |
| `C121_mead_optional` | F N C E |
| `C121_in_place` | F N C E |
| `C121_setup` | - |
| `C122_agrees` | F N C E |
| `C122_same_refuted` | F N C E |
| `C123_central` | F N C E |
| `C123_satellite` | F N C E |
| `C123_determined` | F E |
| `C123_bounds` | F E |
| `C123_empty` | F N C E |
| `C123_normalised_refuted` | F N C E |
| `C124_amplitudes` | F N C E |
| `C124_runs` | F N C E |
| `C124_setup` | F N C E |
| `C124_frame` | F N C E |
| `C124_untouched` | F N C E |
| `C124_failing_writes_refuted` | F N C E |
| `C124_once` | F N C E |
| `C125_occupations` | F N C E |
| `C125_densities` | F N C E |
| `C125_bias` | F N C E |
| `C125_stellar_fraction` | F N C E |
| `C125_interface` | F N C E |
| `C125_average_mass` | F N C E |
| `C125_observable` | F N C E |
| `C125_observable_same` | F N C E |
| `C125_average_mass_refuted` | F N C E |
| `C126_setup` | F N C E |
| `C126_limits` | F N C E |
| `C126_runs` | F N C E |
| `C126_valid` | F N C E |
| `C126_negative` | F N C E |
| `C126_parameter` | F N C E |
| `C126_unknown` | F N C E |
| `C126_frame` | F N C E |
| `C126_again` | F N C E |
| `C126_counts` | F N C E |
| `C126_extended` | F N C E |
| `C126_relation_refuted` | F N C E |
| `C127_tables` | F N C E |
| `C127_class` | F N C E |
| `C127_upsampled` | F N C E |
| `C127_ties_refuted` | F E |
| `C127_amplitudes` | F N C E |
| `C128_setup` | F N C E |
| `C128_runs` | F N C E |
| `C128_slope` | F N C E |
| `C128_slope_refuted` | F N C E |
| `C128_coarse` | F N C E |
| `C128_negative_refuted` | F E |
| `C128_frame` | F N C E |
| `C128_failing` | F N C E |
| `C128_once` | F N C E |
| `C128_samples` | F N C E |
| `C129_matter` | F N C E |
| `C129_galaxy` | F N C E |
| `C129_galaxy_matter` | F N C E |
| `C129_galaxy_intrinsic` | F N C E |
| `C129_matter_intrinsic` | F N C E |
| `C129_intrinsic` | F N C E |
| `C129_intrinsic_refuted` | F N C E |
| `C129_neutrinos` | F N C E |
| `C130_options` | F E |
| `C130_frame` | F N C E |
| `C130_needs_matter` | F N C E |
| `C130_response_needs_matter` | F N C E |
| `C130_poisson` | F N C E |
| `C130_beta` | F N C E |
| `C130_matter_kept` | F N C E |
| `C130_own_power` | F N C E |
| `C131_chain` | F N C E |
| `C131_schedule` | F N C E |
| `C131_origin` | F N C E |
| `C131_every` | F N C E |
| `C131_failed` | F N C E |
| `C131_refused` | F N C E |
| `C131_off` | F N C E |
| `C131_stale_refuted` | F N C E |
| `C131_delete` | F N C E |
| `C132_same` | F N C E |
| `C132_shot` | F E |
| `C132_handed` | F N C E |
| `C132_class_layout` | F N C E |
| `C132_class_layout_refuted` | F N C E |
| `C132_cosmology` | F N C E |
| `C132_cosmology_refuted` | F N C E |
| `C132_masses` | F N C E |
| `C133_history` | F N C E |
| `C133_one_redshift` | F N C E |
| `C133_when_it_fails` | F N C E |
| `C133_setup` | F E |
| `C133_profiles` | F N C E |
| `C134_growth` | F N C E |
| `C134_plain` | F N C E |
| `C134_population` | F N C E |
| `C134_corrected` | F N C E |
| `C134_concentrations_at_least` | F N C E |
| `C135_setup` | F N C E |
| `C135_never` | F N C E |
| `C135_refused` | F N C E |
| `C135_arguments` | F N C E |
