{"id": "C01", "title": "Simpson mass/observable integrals are linear and exact for parabolas", "statement": "The integration rule behind every number density, bias, occupation number and 1-halo/2-halo integral is linear in the integrand and returns the exact integral of every polynomial of degree at most two on every strictly increasing grid with at least three points (odd or even length, regular or not).", "quantifier": "all grids of any length, all integrands, all quadratic coefficients", "why_tests_cant": "tests evaluate a handful of grids; exactness must hold for every grid length parity and spacing", "anchors": ["src/onepower/pk.py:compute_1h_term", "src/onepower/hod.py:_mass_integral", "src/onepower/hod.py:_bias_integral"]}
{"id": "C02", "title": "Integrals of non-negative integrands are non-negative on log-uniform mass grids", "statement": "On every mass grid with constant ratio 1 < r <= 2 (dlog10m <= log10 2) the mass integral of a non-negative integrand is non-negative, hence number densities, 1-halo terms and bias integrals of non-negative inputs are non-negative; on grids with a larger ratio the integral of a non-negative integrand can be negative.", "quantifier": "all grid lengths >= 2, all ratios, all non-negative integrands", "why_tests_cant": "sign of a quadrature rule on irregular grids depends on every spacing, tests use one spacing", "anchors": ["src/onepower/hod.py:_mass_integral", "src/onepower/pk.py:compute_1h_term"]}
{"id": "C03", "title": "The fixed-weight trapezoid integrator is the classical trapezoid rule", "statement": "Contracting any integrand with the precomputed mass weights equals the classical composite trapezoid rule, is exact for affine integrands, has weights summing to mass[-1]-mass[0], is non-negative for non-negative integrands, and a grid with fewer than two points is rejected.", "quantifier": "all mass grids of any length and all integrands", "why_tests_cant": "weights are assembled by slices whose boundary entries only matter for particular lengths", "anchors": ["src/onepower/pk.py:_trapezoidal_weights", "src/onepower/pk.py:trapezoidal_integrator"]}
{"id": "C04", "title": "Linear re-gridding reproduces nodes, stays in the convex hull and is linear", "statement": "Every linear interpolation used to move arrays between redshift or wavenumber grids returns the tabulated value at every node, lies between the two neighbouring tabulated values inside the range, is exact for affine data everywhere (extrapolation included), is linear in the data, and returns the fill value outside the range when extrapolation is off.", "quantifier": "all strictly increasing grids with >= 2 nodes, all data, all query points", "why_tests_cant": "must hold for every grid and query point including the edges", "anchors": ["src/onepower/hod.py:_interpolate", "src/onepower/add.py:extrapolate_spectra", "cosmosis_modules/onepower_interface.py:interpolate_in_z"]}
{"id": "C05", "title": "Total occupation is centrals plus satellites", "statement": "For each HOD model and any assembly-bias decoration, the total occupation equals central plus satellite occupation at every bin, redshift and mass, and this survives the interpolation to the requested redshifts.", "quantifier": "all five HOD models, all parameters, grids, bins, redshifts and masses", "why_tests_cant": "universally quantified over parameters and grids", "anchors": ["src/onepower/hod.py:HaloOccupationDistribution.hod", "src/onepower/hod.py:_compute_hod"]}
{"id": "C06", "title": "Number densities add up", "statement": "number_density = number_density_cen + number_density_sat at every requested redshift, inside and outside the tabulated redshift range.", "quantifier": "all HOD parameters, mass functions, grids, redshifts", "why_tests_cant": "needs linearity of quadrature and interpolation for all inputs", "anchors": ["src/onepower/hod.py:number_density", "src/onepower/hod.py:number_density_cen", "src/onepower/hod.py:number_density_sat"]}
{"id": "C07", "title": "Central and satellite fractions are a partition of unity inside the tabulated range and vanish outside", "statement": "At every requested redshift inside the tabulated range with non-vanishing number densities f_c + f_s = 1 and both lie in [0,1] (non-negative inputs, log-uniform mass grid); at every redshift outside the range both are 0.", "quantifier": "all inputs and redshifts", "why_tests_cant": "the fill value only bites outside the tabulated range, which no test checks", "anchors": ["src/onepower/hod.py:f_c", "src/onepower/hod.py:f_s"]}
{"id": "C08", "title": "Galaxy bias is the occupation-weighted mean of the halo bias", "statement": "galaxy_linear_bias = galaxy_linear_bias_cen + galaxy_linear_bias_sat, and with non-negative inputs the total lies between the smallest and the largest halo bias on the mass grid; it equals b when the halo bias is the constant b.", "quantifier": "all inputs", "why_tests_cant": "bounds must hold for every mass function and HOD", "anchors": ["src/onepower/hod.py:_bias_integral", "src/onepower/hod.py:galaxy_linear_bias"]}
{"id": "C09", "title": "Average halo mass of a sample", "statement": "Spectra.mass_avg, used as the mean halo mass of the sample in the alignment amplitudes, is the number-weighted mean halo mass of the centrals multiplied by the central fraction; it lies between zero and the largest halo mass considered, but can lie below the smallest one.", "quantifier": "all HODs, mass functions, grids", "why_tests_cant": "must hold for every HOD including ones with many satellites", "anchors": ["src/onepower/pk.py:mass_avg", "src/onepower/hod.py:avg_halo_mass_cen", "src/onepower/hod.py:number_density"]}
{"id": "C10", "title": "Central occupation is a probability", "statement": "The mean number of centrals lies in [0,1] for Zheng, Zhai, Zehavi and Simple for every mass, every positive sigma or sigma = 0, and every assembly-bias amplitude in [-1,1]; it is non-decreasing in halo mass.", "quantifier": "all parameters, masses, decorations", "why_tests_cant": "for all real parameters", "anchors": ["src/onepower/hod.py:Zheng._compute_hod_cen", "src/onepower/hod.py:Zehavi._compute_hod_cen", "src/onepower/hod.py:Zhai._compute_hod_cen", "src/onepower/hod.py:Simple._compute_hod_cen"]}
{"id": "C11", "title": "Satellite occupation is non-negative, non-decreasing in mass and respects its cut-off", "statement": "Satellite occupations are non-negative for every decoration A_sat >= -1; for alpha > 0 they are non-decreasing in mass; Zheng satellites vanish below M0, Simple satellites vanish below Mmin.", "quantifier": "all parameters and masses", "why_tests_cant": "for all real parameters", "anchors": ["src/onepower/hod.py:Zheng._compute_hod_sat", "src/onepower/hod.py:Simple._compute_hod_sat", "src/onepower/hod.py:Zhai._compute_hod_sat"]}
{"id": "C12", "title": "Zehavi is Zheng without scatter and without cut-off mass", "statement": "With sigma = 0 the Zheng model gives exactly the centrals of the Zehavi model, and as M0 -> 0 (log10_M0 -> -infinity) its satellites tend to the Zehavi satellites with Msat = M1, at every mass.", "quantifier": "all masses and parameters", "why_tests_cant": "equality of two models for all parameters", "anchors": ["src/onepower/hod.py:Zheng", "src/onepower/hod.py:Zehavi"]}
{"id": "C13", "title": "Assembly-bias decoration is neutral at zero and bounded", "statement": "A_cen = None or 0 (A_sat = None or 0) leaves the occupations unchanged; decoration preserves [0,1] for centrals when |A_cen| <= 1 and multiplies satellites by 1 + A_sat.", "quantifier": "all amplitudes, occupations", "why_tests_cant": "for all amplitudes", "anchors": ["src/onepower/hod.py:Zheng._compute_hod_cen", "src/onepower/hod.py:Cacciato._compute_hod_sat"]}
{"id": "C14", "title": "Conditional and observable functions split into centrals and satellites", "statement": "obs_func = obs_func_cen + obs_func_sat and stellar_fraction = stellar_fraction_cen + stellar_fraction_sat at every bin, redshift and observable, and all are non-negative for non-negative normalisations on log-uniform grids.", "quantifier": "all Cacciato parameters, grids", "why_tests_cant": "for all parameters and grids", "anchors": ["src/onepower/hod.py:Cacciato.obs_func", "src/onepower/hod.py:Cacciato.COF", "src/onepower/hod.py:Cacciato.stellar_fraction"]}
{"id": "C15", "title": "Observable and redshift bins are covered exactly", "statement": "The observable grid of a bin has nobs strictly increasing points running exactly from 10^obs_min to 10^obs_max, and the redshift grid of a bin runs from zmin to zmax; the number of bins returned is the number requested when the limit lists have equal lengths (shorter redshift lists drop bins without an error).", "quantifier": "all numbers of bins and points, all limits, all list lengths", "why_tests_cant": "bin bookkeeping for every length, including lists of different lengths", "anchors": ["src/onepower/hod.py:obs", "src/onepower/hod.py:z", "src/onepower/hod.py:log_obs_min"]}
{"id": "C16", "title": "Total power is one-halo plus two-halo", "statement": "For gg, gm, mi, ii, gi in every non-linear mode, and for mm in every mode except hmcode, pk_tot = pk_1h + pk_2h at every bin, redshift and wavenumber, with or without response (mm excluded in response mode, where the two components are zero).", "quantifier": "all configurations and inputs", "why_tests_cant": "for every configuration branch and every input", "anchors": ["src/onepower/pk.py:power_spectrum_gg", "src/onepower/pk.py:power_spectrum_gm", "src/onepower/pk.py:power_spectrum_mi", "src/onepower/pk.py:power_spectrum_ii", "src/onepower/pk.py:power_spectrum_gi", "src/onepower/pk.py:power_spectrum_mm"]}
{"id": "C17", "title": "Two-halo galaxy clustering is bias squared times linear power", "statement": "Outside bnl mode pk_2h(gg) = galaxy_linear_bias^2 * P_lin * truncation, hence non-negative, and galaxy_linear_bias = |I_c + I_s|.", "quantifier": "all inputs", "why_tests_cant": "algebraic identity for all inputs", "anchors": ["src/onepower/pk.py:power_spectrum_gg"]}
{"id": "C18", "title": "Two-halo terms are mutually consistent", "statement": "Outside bnl and hmcode modes, pk_2h(gm)^2 = pk_2h(gg) * pk_2h(mm) at every point (same mass functions, same truncation).", "quantifier": "all inputs", "why_tests_cant": "algebraic identity for all inputs", "anchors": ["src/onepower/pk.py:power_spectrum_gm", "src/onepower/pk.py:power_spectrum_gg", "src/onepower/pk.py:_power_spectrum_mm"]}
{"id": "C19", "title": "Large-scale matter power tends to linear theory whatever the mass function", "statement": "Wherever the normalised halo profile is 1 (the first wavenumber by construction) the matter two-halo integral is exactly 1, for every mass function, bias and minimum mass, so pk_2h(mm) = P_lin * truncation there.", "quantifier": "all mass functions, biases, grids, mean densities", "why_tests_cant": "the compensation term must cancel for every mass grid", "anchors": ["src/onepower/pk.py:Im_term", "src/onepower/pk.py:compute_A_term", "src/onepower/hmi.py:u_dm"]}
{"id": "C20", "title": "Central alignment two-halo integral is the NLA amplitude", "statement": "The central alignment integral plus its low-mass compensation equals f_c * C1 * rho / D (times the halo-mass scaling) exactly, for every mass function, bias and mass grid; hence with unit linear fraction (t_eff = 1), I_m = 1 and no mass scaling, the default and the fortuna modes give the same central m-I two-halo term.", "quantifier": "all inputs", "why_tests_cant": "cancellation across modules for every input", "anchors": ["src/onepower/pk.py:Ic_align_term", "src/onepower/pk.py:central_alignment_profile", "src/onepower/pk.py:alignment_amplitude_2h"]}
{"id": "C21", "title": "Alignment spectra scale with the alignment amplitudes", "statement": "mi and gi are linear and ii is quadratic in a common rescaling of central and satellite alignment amplitudes; with zero amplitudes all alignment spectra vanish.", "quantifier": "all amplitudes, all inputs, all modes", "why_tests_cant": "for all amplitudes and all branches", "anchors": ["src/onepower/pk.py:power_spectrum_mi", "src/onepower/pk.py:power_spectrum_ii", "src/onepower/pk.py:power_spectrum_gi", "src/onepower/pk.py:C1"]}
{"id": "C22", "title": "Central-satellite cross term of the intrinsic-intrinsic two-halo power", "statement": "In the default and hmcode modes, pk_2h(ii) is the power with only centrals aligned, plus the power with only satellites aligned, plus once the geometric mean of the two (not twice, so it is not the auto-power of the summed alignment field); pk_2h of mi and gi are plain sums of their central and satellite parts.", "quantifier": "all inputs", "why_tests_cant": "algebraic identity for all inputs", "anchors": ["src/onepower/pk.py:power_spectrum_ii", "src/onepower/pk.py:power_spectrum_gg"]}
{"id": "C23", "title": "Sign conventions of alignment cross-spectra", "statement": "For positive amplitudes and non-negative ingredients, pk(mi) <= 0 and pk(ii) >= 0 in the default and fortuna modes, and pk(gi) >= 0, the opposite sign of pk(mi).", "quantifier": "all non-negative ingredients", "why_tests_cant": "sign for all inputs and modes", "anchors": ["src/onepower/pk.py:power_spectrum_mi", "src/onepower/pk.py:power_spectrum_gi", "src/onepower/pk.py:alignment_amplitude_2h"]}
{"id": "C24", "title": "Response mode rescales by one common factor", "statement": "In response mode power_spectrum_mm.pk_tot is the supplied non-linear power exactly, and each of the gg, gm, mi, ii, gi spectra equals the non-response spectrum times P_nl / P_mm(halo model): ratios between spectra and between 1h and 2h are unchanged.", "quantifier": "all inputs with non-zero halo-model matter power", "why_tests_cant": "for all inputs and all spectra", "anchors": ["src/onepower/pk.py:power_spectrum_mm", "src/onepower/pk.py:power_spectrum_gg"]}
{"id": "C25", "title": "Beyond-linear bias correction is bilinear, symmetric and vanishes with beta_nl", "statement": "The beta_nl correction is bilinear in the two profiles, symmetric under exchange of the fields when beta_nl is symmetric, zero when beta_nl = 0, and for constant beta_nl = B equals B times the product of the two (trapezoid) one-field integrals including the compensation terms.", "quantifier": "all profiles, beta_nl tables, mass grids", "why_tests_cant": "bilinear identities for all tensors", "anchors": ["src/onepower/pk.py:I_NL", "src/onepower/pk.py:prepare_I22_integrand", "src/onepower/pk.py:prepare_I12_integrand", "src/onepower/pk.py:prepare_I21_integrand"]}
{"id": "C26", "title": "hmcode transition smoothing interpolates between the terms", "statement": "In hmcode mode the total is at least the larger of the one- and two-halo terms, at most their sum when alpha >= 1 (at least their sum when alpha <= 1), symmetric in them, equal to their sum at alpha = 1, and independent of the k^3/2pi^2 prefactor.", "quantifier": "all positive powers, all neff, all k", "why_tests_cant": "inequalities for all real inputs", "anchors": ["src/onepower/pk.py:transition_smoothing"]}
{"id": "C27", "title": "Halo-term truncations are damping factors", "statement": "Every truncation factor lies in [0,1]; one-halo factors increase with k and vanish at k -> 0, two-halo factors decrease with k and tend to 1 at k -> 0; a None scale disables the factor, a given scale multiplies exactly the one-halo (two-halo) part of the spectra it belongs to; the requested wavenumber sets the scale of every factor except the two-halo factor of the galaxy and matter spectra, which ignores it.", "quantifier": "all wavenumbers, scales", "why_tests_cant": "for all k and scales", "anchors": ["src/onepower/pk.py:one_halo_truncation", "src/onepower/pk.py:two_halo_truncation", "src/onepower/pk.py:one_halo_truncation_ia", "src/onepower/pk.py:two_halo_truncation_ia", "src/onepower/pk.py:one_halo_truncation_mead2020", "src/onepower/pk.py:two_halo_truncation_mead2020"]}
{"id": "C28", "title": "Fortuna effective power is a mixture of linear and non-linear power", "statement": "peff equals P_nl at t_eff = 0, P_lin at t_eff = 1, lies between them for t_eff in [0,1], and is absent in every other mode.", "quantifier": "all t_eff, power spectra", "why_tests_cant": "for all mixtures", "anchors": ["src/onepower/pk.py:peff"]}
{"id": "C29", "title": "Baryonic feedback conserves and orders the mass budget", "statement": "For 0 <= f_* <= omega_b/omega_m the gas fraction lies in [0, omega_b/omega_m - f_*), increases with halo mass, halves the reservoir exactly at M = M_b, and the large-scale (u = 1) matter weight of a halo never exceeds M / rho when omega_c + omega_b = omega_m.", "quantifier": "all masses, fractions, temperatures", "why_tests_cant": "for all real parameters", "anchors": ["src/onepower/pk.py:fg", "src/onepower/pk.py:fg_fit", "src/onepower/pk.py:compute_matter_profile_with_feedback"]}
{"id": "C30", "title": "Poisson factors follow their model", "statement": "constant gives the same factor at every mass; power_law gives poisson at the pivot mass and scales as a power law; power_law without pivot or slope is rejected.", "quantifier": "all masses and parameters", "why_tests_cant": "for all parameters", "anchors": ["src/onepower/utils/poisson.py:constant", "src/onepower/utils/poisson.py:power_law"]}
{"id": "C31", "title": "Dewiggling stays between the spectrum and its smooth part", "statement": "For every array of at least two wavenumbers, evenly spaced or not, dewiggling returns a value between P and P - wiggle; a spectrum proportional to the no-wiggle spectrum is returned unchanged, and a spectrum within given ratios of the no-wiggle spectrum stays within them.", "quantifier": "all k arrays", "why_tests_cant": "all k arrays, all filter widths", "anchors": ["src/onepower/pk.py:get_Pk_wiggle", "src/onepower/pk.py:dewiggle_plin"]}
{"id": "C32", "title": "Configuration options are validated", "statement": "Construction accepts exactly the documented values of nonlinear_mode and hmcode_ingredients, with hmcode only together with mead2020 or mead2020_feedback, and raises ValueError otherwise. An update is accepted exactly when every value given is documented and the resulting pair is; in every configuration reached by accepted calls all six spectra are computed without reaching an undefined intermediate. A rejected update is not undone. The IA dependence and transform method options accept exactly their documented values.", "quantifier": "all option values and their combinations, all sequences of updates", "why_tests_cant": "validity over all strings, all combinations of options and all update sequences", "anchors": ["src/onepower/pk.py:validate", "src/onepower/pk.py:nonlinear_mode", "src/onepower/hmi.py:hmcode_ingredients", "src/onepower/ia.py:central_ia_depends_on"]}
{"id": "C33", "title": "Supplied power spectra must match the grids", "statement": "A supplied linear spectrum whose shape differs from (number of redshifts, number of wavenumbers) is rejected with ValueError whenever it is used, except that a dewiggled one may have a single column; a supplied non-linear spectrum with wrong shape is rejected whenever it is used; every spectrum that succeeds has passed these checks, except the response-mode matter spectrum, which uses only the non-linear one.", "quantifier": "all shapes and modes", "why_tests_cant": "for all shapes", "anchors": ["src/onepower/pk.py:_pk_lin", "src/onepower/pk.py:_pk_nl"]}
{"id": "C34", "title": "When Spectra results follow parameter updates", "statement": "After any sequence of parameter updates and reads of a Spectra object (hmcode_ingredients and the other options that select a branch but are not declared as switches staying in their class), every attribute that does not use omega_m reads as on a new object with the current parameters; so does every spectrum when no baryon feedback is active and beta_nl is not emulated, and every attribute when no cosmological parameter is updated. Otherwise stale values do occur: omega_m is cached for ever, and a quantity whose branch changed does not see later updates of parameters used only by the new branch.", "quantifier": "all histories of updates and reads, all quantities", "why_tests_cant": "histories are unbounded; a stale cache only shows for particular read/update orders", "anchors": ["src/onepower/hmi.py:omega_m", "src/onepower/hmi.py:cosmo_model", "src/onepower/hmi.py:K", "src/onepower/pk.py:Spectra"]}
{"id": "C35", "title": "When UpsampledSpectra results follow its parameters", "statement": "As long as z, fraction, fraction_z, model and the model parameters are not changed (k and extrapolate_option may be, and results() may be called any number of times), every results() call gives what a newly built object with the current parameters gives. After a first successful results() call naming a mode other than mm, update() of anything but z, k and extrapolate_option has no effect on any later result, and a different number of output redshifts makes every mode but mm raise.", "quantifier": "all histories", "why_tests_cant": "histories are unbounded", "anchors": ["src/onepower/add.py:frac_1", "src/onepower/add.py:power_1", "src/onepower/add.py:power_2"]}
{"id": "C36", "title": "What computing alignments does to the caller's settings", "statement": "A non-empty align_params dictionary is shared with the caller: computing alignments overwrites exactly its keys z_vec, mass_in, c_in, r_s_in, rvir_in and method (always fftlog, whatever was requested) and no other key; an empty one is left empty. However many objects share a dictionary and in whatever order they compute, each passes its own six values and the caller's other entries to SatelliteAlignment.", "quantifier": "all dictionaries, all sequences of computations by objects sharing them", "why_tests_cant": "aliasing effect for all inputs and all interleavings", "anchors": ["src/onepower/pk.py:alignment_class"]}
{"id": "C37", "title": "Two-population mixing", "statement": "With fraction 1 (or none) the result is the first model; gm and mi are convex mixtures for fractions in [0,1]; mixing two identical populations returns the population's spectrum for mm, gm and mi and f^2 + (1-f)^2 times it for the other modes; without second population the modes are scaled by f or f^2; mm never depends on the second model.", "quantifier": "all fractions, spectra, modes", "why_tests_cant": "for all fractions and modes", "anchors": ["src/onepower/add.py:add_spectra", "src/onepower/add.py:frac_1"]}
{"id": "C38", "title": "Upsampling preserves component sums and reproduces the input on its own grid", "statement": "Re-gridding and mixing are linear, so pk_tot = pk_1h + pk_2h still holds on the output grid whenever it held on the input grid and the fill option is 'extrapolate' or zero (or the redshift lies inside the model's range); requesting the model's own grid returns the model's values.", "quantifier": "all grids and spectra", "why_tests_cant": "for all grids", "anchors": ["src/onepower/add.py:extrapolate_spectra", "src/onepower/add.py:results"]}
{"id": "C39", "title": "results() stores exactly what was requested", "statement": "After any sequence of results() calls the object holds, for every mode requested so far, the components requested by the last call that named it (the others None), and nothing for modes never requested.", "quantifier": "all call sequences", "why_tests_cant": "histories of calls are unbounded", "anchors": ["src/onepower/add.py:results", "src/onepower/pk.py:PowerSpectrumResult"]}
{"id": "C40", "title": "Emulator parameters are clamped to the supported box", "statement": "The cosmology passed to the emulator always lies inside the six supported ranges, equals the request when the request is inside, and clamping is idempotent and monotone; A_s takes precedence over sigma_8, one of the two is required, and a requested sigma_8 is reached exactly when the amplitude it needs lies in the box.", "quantifier": "all parameter vectors", "why_tests_cant": "for all vectors", "anchors": ["src/onepower/bnl.py:test_cosmo"]}
{"id": "C41", "title": "Beyond-linear bias truncations are complementary", "statement": "The low-k and high-k logistic truncations lie strictly between 0 and 1, are monotone in k, equal 1/2 at the truncation scale and sum to 1 at equal scale.", "quantifier": "all k and scales > 0", "why_tests_cant": "for all k", "anchors": ["src/onepower/bnl.py:low_k_truncation", "src/onepower/bnl.py:high_k_truncation"]}
{"id": "C42", "title": "beta_nl tables are symmetric and correctly indexed", "statement": "The returned table entry (k, m1, m2) is the interpolated beta_nl at exactly that wavenumber and pair of masses, for every grid size, and is symmetric in the two masses; the interpolated value is the one computed at the nearest nodes; there is one table per redshift, or one at z = 0.01.", "quantifier": "all grid sizes and emulator outputs", "why_tests_cant": "flattened repeat/tile indexing must be right for all sizes", "anchors": ["src/onepower/bnl.py:bnl", "src/onepower/bnl.py:compute_bnl_darkquest"]}
{"id": "C43", "title": "Multipole range is within the coefficient tables", "statement": "Every accepted ell_max yields only even multipoles 0..ell_max and every table lookup stays in bounds; larger values are rejected.", "quantifier": "all integers ell_max", "why_tests_cant": "for all integers", "anchors": ["src/onepower/ia.py:ell_max", "src/onepower/ia.py:ell_values", "src/onepower/ia.py:calculate_f_ell"]}
{"id": "C44", "title": "Downsampling keeps the end points and samples every quantity alike", "statement": "With method 'hankel', downsampling a one-dimensional quantity keeps its first and last value and the order and returns at least nmass points; an array of exactly nmass points, and any array for another method, is unchanged; fewer masses than nmass raise ValueError. Quantities without repetition, and tables whose columns all differ from the last one at every redshift, are sampled at one and the same list of increasing indices from 0 to the last. Ties are the exception: a constant quantity gets fewer points than the masses, and a table tied at a single redshift loses its last column.", "quantifier": "all lengths, nmass, quantities and tables", "why_tests_cant": "stride arithmetic for all lengths", "anchors": ["src/onepower/ia.py:_downsample"]}
{"id": "C45", "title": "Luminosity scaling is a continuous broken power law", "statement": "The two-slope luminosity scaling equals the amplitude at the pivot, is continuous and positive, is a power law of slope beta above and beta_low below the pivot; averaged over any distribution it is the sum of the two one-sided means, the single power-law mean when the slopes agree, and the mean is the integral of the weighted power law when that is a parabola.", "quantifier": "all luminosities, slopes", "why_tests_cant": "for all reals", "anchors": ["src/onepower/ia.py:broken_powerlaw"]}
{"id": "C46", "title": "Alignment amplitude follows the selected dependence", "statement": "alignment_gi (gamma_1h_amp) is the constant central (satellite) amplitude for 'constant' and, when a mass pivot is given, for 'halo_mass'; for 'luminosity' it is the amplitude times the mean luminosity scaling with the central (satellite) slope, pivot and sample; a missing pivot or sample and two slopes with halo_mass are rejected. A non-negative strength gives a non-negative amplitude.", "quantifier": "all option combinations", "why_tests_cant": "decision table over all options", "anchors": ["src/onepower/ia.py:alignment_gi", "src/onepower/ia.py:gamma_1h_amp"]}
{"id": "C47", "title": "Satellite radial alignment profile is capped and truncated", "statement": "The radial shear profile never exceeds the cap 0.3, is constant inside the core radius, equals the power law where that is below the cap, falls with radius for negative slopes; its product with the NFW density vanishes from the virial radius on exactly when truncation is on; the normalisation is the NFW mass inside c scale radii.", "quantifier": "all radii, slopes, amplitudes", "why_tests_cant": "for all reals", "anchors": ["src/onepower/ia.py:gamma_r_nfw_profile"]}
{"id": "C48", "title": "Content of the alignment parameter dictionaries", "statement": "In the pipeline the alignment dictionaries of both populations hold exactly eleven entries, each read from that population's own section. The gate of the halo-mass entries is swapped: central_IA_depends_on = 'halo_mass' decides whether the satellite slope and pivot are read and satellite_IA_depends_on = 'halo_mass' the central ones. Collection succeeds exactly when the gated entries and the three gamma entries are present.", "quantifier": "all option values and parameter blocks", "why_tests_cant": "for all option values", "anchors": ["cosmosis_modules/onepower_interface.py:execute"]}
{"id": "C49", "title": "Splitting the alignment sample", "statement": "With split_ia every alignment spectrum written equals the one of the first population alone, because its weight is fixed to one: replacing the second population's settings and section changes no value written.", "quantifier": "all parameter blocks", "why_tests_cant": "independence can only be shown for all inputs", "anchors": ["cosmosis_modules/onepower_interface.py:execute", "src/onepower/add.py:add_spectra"]}
{"id": "C50", "title": "beta_nl refresh schedule", "statement": "Over any sequence of pipeline calls, call number n uses the beta_nl table computed at call floor(n/u)*u where u = update_bnl, so the table is never older than u-1 calls and is recomputed exactly every u calls; failed calls do not break the schedule, and u = 0 makes every call raise ZeroDivisionError.", "quantifier": "all call sequences and all u >= 1", "why_tests_cant": "histories of calls are unbounded", "anchors": ["cosmosis_modules/onepower_interface.py:execute", "cosmosis_modules/onepower_interface.py:setup"]}
{"id": "C51", "title": "Output sections of distinct bins never collide", "statement": "The per-bin section suffix is empty exactly for a single bin and otherwise distinct bins and distinct quantities write to distinct names, for any number of bins; a successful call with distinct section names writes every (section, key) at most once.", "quantifier": "all numbers of bins", "why_tests_cant": "injectivity for all bin counts", "anchors": ["cosmosis_modules/onepower_interface.py:save_pk_to_grid", "cosmosis_modules/onepower_interface.py:save_hod_results"]}
{"id": "C52", "title": "Matter HOD settings cover every galaxy bin", "statement": "The HOD settings used for the matter power cover the observable and redshift range of every galaxy bin with a single bin and leave the galaxy settings unchanged, when limits are given; when an observables file is given the pipeline set-up raises KeyError.", "quantifier": "all numbers of bins and limits", "why_tests_cant": "for all lists", "anchors": ["cosmosis_modules/onepower_interface.py:setup_hod_settings_mm"]}
{"id": "C53", "title": "Log-linear wavenumber interpolation keeps power positive", "statement": "The pipeline's k-interpolation returns positive power for every positive input and every k > 0 (extrapolation included), reproduces nodes and is exact for power laws.", "quantifier": "all positive spectra and grids", "why_tests_cant": "for all inputs", "anchors": ["cosmosis_modules/onepower_interface.py:log_linear_interpolation_k"]}
{"id": "C54", "title": "Missing model parameters abort before output", "statement": "If any parameter required by the selected Poisson or HOD model (per bin where applicable) is missing, or the model is not in the pipeline's table, the pipeline raises before writing any output; if all are present they are collected bin by bin in order.", "quantifier": "all blocks, models, bin counts", "why_tests_cant": "for all blocks", "anchors": ["cosmosis_modules/onepower_interface.py:execute"]}
{"id": "C55", "title": "Real-space separations follow the transform convention", "statement": "The Transformer samples the spectrum on n logarithmically spaced wavenumbers from k_min to k_max, transforms with the Bessel order of the type (0 for wp, 2 for ds) and a low-ringing kr, and returns exactly the grid separations strictly inside (rp_min, rp_max); 2 pi rp xi(rp) is the discrete Hankel transform of k P(k) evaluated one logarithmic step further out, at rp exp(dlogr), because the centre index (n+1)/2 of a 1-based array is used with 0-based indices. (As first stated - the separations are those of the transform's own grid - it is false.)", "quantifier": "all sizes, ranges", "why_tests_cant": "off-by-one of the centre index for all sizes", "anchors": ["cosmosis_modules/pk_to_real/pk_to_real.py:Transformer", "cosmosis_modules/pk_to_real/pyfftlog.py:fftl"]}
{"id": "C56", "title": "Sign-aware logarithmic interpolation", "statement": "Interpolation of an all-positive (all-negative) spectrum is positive (negative) at every k, also when extrapolating; in every case it reproduces the nodes, stays between the smallest and largest tabulated value inside the tabulated range, scales with the spectrum (by any constant of any sign), and is exact, also outside the range, on power laws of either sign.", "quantifier": "all spectra, k", "why_tests_cant": "for all inputs", "anchors": ["cosmosis_modules/pk_to_real/pk_to_real.py:LogInterp"]}
{"id": "C57", "title": "Fast Hankel transform is linear and index-safe", "statement": "For every array length the transform only reads initialised coefficients inside the saved array, is linear in its input, and the low-ringing kr differs from the requested one by at most half a logarithmic step and satisfies the low-ringing condition.", "quantifier": "all lengths n, orders, biases, inputs", "why_tests_cant": "index arithmetic for all n", "anchors": ["cosmosis_modules/pk_to_real/pyfftlog.py:fhti", "cosmosis_modules/pk_to_real/pyfftlog.py:fhtq", "cosmosis_modules/pk_to_real/pyfftlog.py:krgood"]}
{"id": "C58", "title": "Cosmology correction rescales separations once per bin", "statement": "Correcting the observables multiplies the values of each bin by that bin's own ratio and no other, and multiplies the separations, shared by all bins, by the product of the distance ratios of all bins (so the separations are right for one bin only: as first stated - each bin is rescaled by its own ratio - it is false). wp goes with the inverse of the expansion rate H = 100 h E, ds with the critical surface density for a source at 0.6 over h, the separations with the comoving distance in Mpc/h. With equal cosmologies nothing changes, corrections compose, and a wrong number of redshifts or an unknown type raises ValueError leaving the block unchanged.", "quantifier": "all numbers of bins, ratios", "why_tests_cant": "loop-carried effect over any number of bins", "anchors": ["cosmosis_modules/pk_to_real/correct_cosmo_real.py:execute"]}
{"id": "C59", "title": "Angle unit conversion is lossless and idempotent", "statement": "Converting angles to any supported unit and back returns the original values, converting twice to the same unit changes nothing, unsupported output units are rejected.", "quantifier": "all angles and unit pairs", "why_tests_cant": "for all values and units", "anchors": ["cosmosis_modules/convert_theta/convert_theta.py:execute"]}
{"id": "C60", "title": "One-halo terms are mass integrals", "statement": "At a tabulated redshift, when the integrand is a parabola in mass on the grid, the one-halo terms of mm, gg, gm, mi, ii, gi are exactly the integrals of W1 W2 dn/dM over the mass range (gg: twice central-satellite plus Poisson factor times satellite-satellite) times the one-halo truncation, with W the matter (M u / rho), central (N_c / n), satellite (N_s u_s / n) and alignment (N_s w / n) weights.", "quantifier": "all occupations, mass functions, profiles, grids of any size", "why_tests_cant": "pins the integrand and the normalisation for all inputs", "anchors": ["src/onepower/pk.py:compute_1h_term", "src/onepower/pk.py:power_spectrum_gg", "src/onepower/pk.py:power_spectrum_gm", "src/onepower/pk.py:power_spectrum_mm"]}
{"id": "C61", "title": "Two-halo terms are bias-weighted mass integrals", "statement": "Under the same conditions the two-halo terms of gg, gm and mm are linear power times the product of the fields' bias-weighted mass integrals (with the compensation 1 - integral of M b / rho for matter) times the two-halo truncation.", "quantifier": "all occupations, mass functions, biases, profiles, grids", "why_tests_cant": "pins the integrand and the normalisation for all inputs", "anchors": ["src/onepower/pk.py:Im_term", "src/onepower/pk.py:Ic_term", "src/onepower/pk.py:Is_term", "src/onepower/pk.py:A_term"]}
{"id": "C62", "title": "Gas mass scale is in linear units", "statement": "mb is used as a mass in solar masses: with the constructor default mb = 13.87 (a log10 mass) the fitted gas fraction of every halo above 10^9 is within 1e-15 of the full reservoir, i.e. the default 'fit' feedback expels nothing.", "quantifier": "all halo masses above 10^9, all star fractions", "why_tests_cant": "for all masses", "anchors": ["src/onepower/pk.py:fg_fit", "src/onepower/pk.py:__init__", "cosmosis_modules/onepower_interface.py:execute"]}
{"id": "C63", "title": "Angular alignment coefficients are the angular integrals", "statement": "For every direction, multipole below 12 and even slope, the coefficient used by the alignment transform is the integral over the sphere of sin^slope times cos(2 phi) times the Legendre polynomial of the angle to k; at the fixed direction theta = pi/2 the hard-coded slope -2 values agree with it to 3e-6, while the hard-coded slope 0 values do not (they are those of slope 1).", "quantifier": "all directions, multipoles < 12, even slopes", "why_tests_cant": "an identity between a double sum of gamma functions and a double integral", "anchors": ["src/onepower/ia.py:I_x", "src/onepower/ia.py:calculate_f_ell"]}
{"id": "C64", "title": "Luminosity tables partition the galaxy sample", "statement": "Every galaxy between the outer redshift edges is assigned to exactly one redshift bin and its luminosity to exactly one luminosity bin; the tabulated distribution is non-negative and integrates to one, the tabulated luminosities are the bin centres, and an empty redshift bin gives a zero mean for an exponent that is not negative.", "quantifier": "all galaxy samples, redshift grids and numbers of bins", "why_tests_cant": "counting argument over arbitrary samples", "anchors": ["src/onepower/ia.py:compute_luminosity_pdf"]}
{"id": "C65", "title": "Upsampling the alignment transform reproduces and bounds it", "statement": "With 'hankel' the upsampled transform is positive everywhere, equals the computed value at every grid node, is exact for products of powers of k and mass even beyond the grid, and stays within the hull inside it; with 'fftlog' it equals the computed value at the nodes and stays within their range inside the grid, but its linear extrapolation can become negative.", "quantifier": "all grids and transforms", "why_tests_cant": "for all tables and query points", "anchors": ["src/onepower/ia.py:upsampled_wkm"]}
{"id": "C66", "title": "Smoothed beta_nl vanishes at the pivot and ignores the emulator's calibration", "statement": "For every emulator and interpolator the smoothed beta_nl is zero at k = 0.05, interpolates exactly the interior local maxima of |1 + raw beta| (plateau edges included, in order), carries both truncations, and does not change when the halo power is multiplied by any amplitude per mass and the linear power by any constant; for linearly biased halos the raw beta is minus the linear power absorbed by the shot-noise estimate, relative to the linear power; a chunked envelope picks an extremum of each chunk.", "quantifier": "all emulator outputs, interpolators, wavenumber grids, masses, chunk sizes", "why_tests_cant": "for all outputs of an external emulator", "anchors": ["src/onepower/bnl.py:compute_bnl_darkquest", "src/onepower/bnl.py:hl_envelopes_idx"]}
{"id": "C67", "title": "Emulator mass and radius scales are spheres of the stated density", "statement": "minimum_halo_mass is the mass of 200 particles, its radius that of the sphere of mean density holding it and kmax its wavenumber; rvir encloses the mass at 200 times the mean density; the interpolation grids are strictly increasing for every Omega_m up to 15.", "quantifier": "all Omega_m, masses", "why_tests_cant": "identity for all inputs", "anchors": ["src/onepower/bnl.py:minimum_halo_mass", "src/onepower/bnl.py:rvir", "src/onepower/bnl.py:create_bnl_interpolation_function"]}
{"id": "C68", "title": "Pipeline redshift interpolation refuses to extrapolate", "statement": "interpolate_in_z succeeds exactly for redshifts inside the tabulated range (else ValueError), reproduces the tabulated spectra at the nodes, is exact for linear evolution and stays between the smallest and largest tabulated value.", "quantifier": "all tables and redshifts", "why_tests_cant": "for all inputs", "anchors": ["cosmosis_modules/onepower_interface.py:interpolate_in_z"]}
{"id": "C69", "title": "Every requested spectrum is written with its value, and nothing else", "statement": "A successful pipeline call writes, for every requested spectrum and every bin, the one-halo, two-halo and total power that the spectra object returns for the parameters of this call, re-gridded to the pipeline grid; it writes no other spectrum; and outside the beta_nl mode two runs whose objects answer the parameter update alike produce the same result and the same writes whatever happened before.", "quantifier": "all configurations, parameter blocks, histories, spectra objects", "why_tests_cant": "for all configurations and call histories", "anchors": ["cosmosis_modules/onepower_interface.py:execute", "cosmosis_modules/onepower_interface.py:save_pk_to_grid"]}
{"id": "C70", "title": "The fast Hankel transform is exact on its own basis and invertible", "statement": "With the array saved by fhti, fht of a log-periodic mode r^(dir q) cos(2 y_m ln r + psi) sampled on r_j is k^(-dir q) |U_mu(q + 2 i y_m)|^dir cos(arg U + psi - 2 y_m ln k) on k_j = kr/r_c times the grid, and of the power law r^(dir q) is k^(-dir q) U_mu(q)^dir; unbiased, it is a convolution in ln(k r) with the Bessel kernel and preserves the sum of squares; a call with dir followed by a call with -dir returns the array. For fftl the documented round trip is false: it holds once the array is multiplied by (k/k_c)^dir in between.", "quantifier": "all lengths, orders, biases, steps, kr, arrays", "why_tests_cant": "index and phase conventions over every length and frequency", "anchors": ["cosmosis_modules/pk_to_real/pyfftlog.py:fhtq", "cosmosis_modules/pk_to_real/pyfftlog.py:fht", "cosmosis_modules/pk_to_real/pyfftlog.py:fftl", "cosmosis_modules/pk_to_real/pyfftlog.py:fhti"]}
{"id": "C71", "title": "Projected correlation functions integrate each bin's own spectrum over its own redshift distribution", "statement": "For every bin the output is, at each kept separation, the Simpson integral over the redshifts of the spectrum of n_i(z) times the transform of the spectrum at that redshift, times the mean density over 1e12 for ds and 1 for wp; a spectrum that factorises gives a factorised result; a redshift distribution that does not overlap the spectrum gives zero; a bin depends on no other bin's section or distribution. The mean density must be the same at all redshifts; zero bins raise UnboundLocalError.", "quantifier": "all spectra, redshift distributions, numbers of bins", "why_tests_cant": "relation between runs and integrals, for all inputs", "anchors": ["cosmosis_modules/pk_to_real/pk_to_real.py:CosmosisTransformer.__call__", "cosmosis_modules/pk_to_real/pk_to_real.py:CosmosisTransformer.load_kernel"]}
{"id": "C72", "title": "The expansion and acceleration terms of the growth equation agree", "statement": "For a dark energy whose density falls as its equation of state demands (the CPL form included) the derivative of the reduced Hubble rate squared is 2 (AH - H2)/a: the acceleration used by the growth equation belongs to the same universe as its expansion rate. Today the rate is one and the matter fraction is Omega_m0 + Omega_nu0; in a flat universe the matter fraction stays in (0, 1].", "quantifier": "all cosmologies, scale factors", "why_tests_cant": "identity over all dark energies and scale factors", "anchors": ["src/onepower/hmi.py:HaloModelIngredients._Hubble2", "src/onepower/hmi.py:HaloModelIngredients._AH", "src/onepower/hmi.py:HaloModelIngredients._Omega_m"]}
{"id": "C73", "title": "Linear growth is positive, increasing and never faster than the scale factor", "statement": "Every solution of the growth equation from the initial values the code starts from is positive and strictly increasing, has growth rate dln d/dln a in (0, 1], and d(a)/a never increases; the accumulated growth is strictly increasing and never below the growth.", "quantifier": "all flat cosmologies with matter, all scale factors from 1e-4 to 1", "why_tests_cant": "differential equation over all cosmologies", "anchors": ["src/onepower/hmi.py:HaloModelIngredients.get_mead_growth", "src/onepower/hmi.py:HaloModelIngredients.get_mead_growth_fnc", "src/onepower/hmi.py:HaloModelIngredients.get_mead_accumulated_growth"]}
{"id": "C74", "title": "Collapse threshold and virial overdensity have the Einstein-de Sitter limit", "statement": "With matter only the growth equals the scale factor, the accumulated growth equals the growth, and Dv_Mead and dc_Mead reduce to 18 pi^2 and 1.0001 times (3/20)(12 pi)^(2/3), each times its neutrino factor. The neutrino fraction used there is f/(1+f) for f the reported fnu = Omega_nu0/Omega_m0, strictly smaller when neutrinos have mass.", "quantifier": "all redshifts up to 9999, all neutrino fractions", "why_tests_cant": "limit over all redshifts and cosmologies", "anchors": ["src/onepower/hmi.py:HaloModelIngredients.dc_Mead", "src/onepower/hmi.py:HaloModelIngredients.Dv_Mead", "src/onepower/hmi.py:HaloModelIngredients.fnu"]}
{"id": "C75", "title": "HMCode ingredients override the user's halo choices, other ingredients honour them", "statement": "With mead2020 or mead2020_feedback the halo models do not depend on the mass definition, overdensity, collapse threshold, mass function, bias, concentration relation or bloating given by the user: they are SOVirial_Mead with the Mead overdensity, ST, ST99, Bullock01, the Mead threshold and 0.1281 sigma8^-0.3644. With the fit or no ingredient they carry exactly the user's choices (with SOVirial, no overdensity is passed and the threshold is the EdS one with the Omega_m correction).", "quantifier": "all configurations, redshift arrays, redshift-update semantics", "why_tests_cant": "relation between configurations, for all inputs", "anchors": ["src/onepower/hmi.py:HaloModelIngredients._hmf_generator", "src/onepower/hmi.py:HaloModelIngredients._mdef_mod", "src/onepower/hmi.py:HaloModelIngredients._delta_c_mod", "src/onepower/hmi.py:HaloModelIngredients.mdef_params"]}
{"id": "C76", "title": "One halo model per redshift, independent of the other redshifts", "statement": "Although one object is updated in place along the redshift loop, the central and satellite halo model of each redshift, and every row of every accessor, is the one obtained from an instance holding that redshift alone; there are as many as redshifts, in order. It fails exactly when there is no redshift or a per-redshift parameter has a length that is neither 1 nor the number of redshifts (with more than one redshift).", "quantifier": "all redshift arrays and parameter arrays, every accessor", "why_tests_cant": "state carried along a loop of any length", "anchors": ["src/onepower/hmi.py:HaloModelIngredients._hmf_generator", "src/onepower/hmi.py:HaloModelIngredients.hmf_cen", "src/onepower/hmi.py:HaloModelIngredients.hmf_sat"]}
{"id": "C77", "title": "Concentration amplitude follows the feedback strength", "statement": "Without feedback the amplitude is 5.196; with feedback it is positive, strictly decreasing in redshift and, for z >= 0, strictly decreasing in the AGN temperature over the calibrated range, and from 10^7.8 K on at most 0.86 of the gravity-only value; without HMCode ingredients it is zero.", "quantifier": "all redshifts, temperatures", "why_tests_cant": "for all inputs", "anchors": ["src/onepower/hmi.py:HaloModelIngredients.K"]}
{"id": "C78", "title": "Halo collapse redshifts", "statement": "The formation redshift is never below the redshift of observation; it is the latter exactly for haloes whose smoothed amplitude at a hundredth of the mass is below the threshold, and otherwise solves g(a_f) sigma = g(a) delta_c; heavier haloes never form earlier; the search fails exactly when the collapse lies before a = 1e-3.", "quantifier": "all growth functions, amplitudes, masses, redshifts", "why_tests_cant": "for all increasing growth functions and all masses", "anchors": ["src/onepower/hmi.py:HaloModelIngredients.get_halo_collapse_redshifts"]}
{"id": "C79", "title": "Cold-to-total transfer ratio is bounded", "statement": "Tk_cold_ratio is 1 without massive neutrinos; otherwise it lies between 1 and 1/(1-f), does not decrease with wavenumber, and differs from 1 by at most f/(1-f), so it is continuous in the neutrino mass at zero.", "quantifier": "all wavenumbers, cosmologies, growth values", "why_tests_cant": "bounds for all inputs", "anchors": ["src/onepower/hmi.py:HaloModelIngredients.Tk_cold_ratio"]}
{"id": "C80", "title": "Variance of the smoothed field", "statement": "sigmaR_cc squared is the Simpson integral over ln k of k^3 P W^2(kR)/(2 pi^2) on a logarithmic grid; it scales linearly with the field's amplitude and does not decrease when the power does not decrease.", "quantifier": "all spectra, grids of any length, radii", "why_tests_cant": "integrals over arrays of any length", "anchors": ["src/onepower/hmi.py:HaloModelIngredients.sigmaR_cc"]}
{"id": "C81", "title": "Observable functions belong to the same population as the number density", "statement": "The central, satellite and total observable function of the Cacciato HOD integrate over the observable bin to the number densities used by the spectra (times 1 + A_sat for satellites when decorated). Spectra.obs_func is the function per dex: the central one is the derivative with respect to log10 of the observable of the number density of centrals below it, it is nonnegative, splits into central plus satellite part, is evaluated on the observables and redshifts of the observable settings, and is None unless requested for a Cacciato HOD.", "quantifier": "all Cacciato parameters, observables, redshifts, bins, mass grids", "why_tests_cant": "integral identity over all parameters and grids", "anchors": ["src/onepower/pk.py:Spectra.obs_func", "src/onepower/pk.py:Spectra.obs_func_cen", "src/onepower/pk.py:Spectra.obs_func_sat", "src/onepower/hod.py:Cacciato.obs_func"]}
{"id": "C82", "title": "Stellar-to-halo-mass relation of the Cacciato HOD", "statement": "The mean observable strictly increases with halo mass when both slopes are positive, its logarithmic slope lies between the two power laws' and tends to g1 at low and g2 at high mass; the central distribution integrates to one central per halo over all observables and the mean relation is its median.", "quantifier": "all halo masses and parameters", "why_tests_cant": "limits and integrals over the reals", "anchors": ["src/onepower/hod.py:Cacciato.cal_mean_obs_c", "src/onepower/hod.py:Cacciato._compute_hod_cen"]}
{"id": "C83", "title": "Alignment transforms are the spherical Bessel moments of the sheared profile", "statement": "For both transform methods u_ell(k) is the integral of gamma(r) rho(r) r^2 j_ell(kr) over the radii, divided by the halo's mass normalisation; the two methods agree at the FFTLog nodes and the FFTLog one stays between neighbouring nodes' values; every wavenumber of the alignment tables lies strictly inside every multipole's FFTLog grid (no extrapolation), whose grids are reciprocal with one constant step and whose bias lies in the transform's convergence strip. For truncated profiles |u_ell| is at most 0.3/(4 pi), a radially constant shear factors out, and below the cap u_ell is proportional to the amplitude.", "quantifier": "all haloes, amplitudes, slopes, multipoles, wavenumbers, for any transform library that computes its integral", "why_tests_cant": "integral identity over all profiles and wavenumbers", "anchors": ["src/onepower/ia.py:SatelliteAlignment.compute_uell_gamma_r_hankel", "src/onepower/ia.py:SatelliteAlignment.gamma_r_nfw_profile", "src/onepower/ia.py:SatelliteAlignment.k_vec"]}
{"id": "C84", "title": "Quadrature projection of spectra to real space", "statement": "pk_to_real_ogata accepts exactly wp (Bessel order 0) and ds (order 2). Its separations form an increasing logarithmic grid and exactly those strictly inside (rp_min, rp_max) are output, each with the value at that very separation, independent of the grid. With a transform that returns the integral of f(x) J(x) the value is the projected correlation, the integral of k P(k) J(k rp) over 2 pi; with the transform of the required hankel release, which carries a further factor r, it is rp times the integral of k^2 P(k) J(k rp) over 2 pi, which is not the projected correlation. Each bin is the Simpson integral over its own n(z), zero outside its range, of its own section; the call succeeds whenever every bin has its inputs, and fails without bins.", "quantifier": "all spectra, grids, bins, transforms satisfying their law", "why_tests_cant": "for all spectra and grids; integral identity", "anchors": ["cosmosis_modules/pk_to_real/pk_to_real_ogata.py:projected_corr", "cosmosis_modules/pk_to_real/pk_to_real_ogata.py:projection.transform", "cosmosis_modules/pk_to_real/pk_to_real_ogata.py:setup"]}
{"id": "C85", "title": "Matter power does not depend on galaxies", "statement": "The matter power spectrum is the same whatever the galaxies and their alignments, except with the fit ingredient and the Cacciato HOD, whose stellar fraction enters the matter profile (and can change the spectrum). Alignment settings never change the galaxy-galaxy, galaxy-matter or matter spectrum.", "quantifier": "all requests, all galaxy and alignment settings", "why_tests_cant": "two-run property over all inputs", "anchors": ["src/onepower/pk.py:Spectra.power_spectrum_mm", "src/onepower/pk.py:Spectra.power_spectrum_gg", "src/onepower/pk.py:Spectra.matter_profile"]}
{"id": "C86", "title": "Spectra transform as volumes under a change of length unit", "statement": "Without built-in wavenumbers (no hmcode recipes, no dewiggling, no two-halo truncation or tabulated beta_nl instead), expressing every length in another unit multiplies one-halo, two-halo and total of every spectrum by the unit volume and leaves the galaxy bias unchanged.", "quantifier": "all scale-free requests, all six spectra, all units", "why_tests_cant": "two-run property over all inputs", "anchors": ["src/onepower/pk.py:Spectra.power_spectrum_mm", "src/onepower/pk.py:Spectra.power_spectrum_gg", "src/onepower/pk.py:Spectra.power_spectrum_gm", "src/onepower/pk.py:Spectra.power_spectrum_mi", "src/onepower/pk.py:Spectra.power_spectrum_ii", "src/onepower/pk.py:Spectra.power_spectrum_gi"]}
{"id": "C87", "title": "Response to the abundance of haloes", "statement": "Making every halo a times as abundant multiplies the galaxy density by a, leaves the central and satellite fractions, the galaxy bias and the mean halo mass unchanged, divides the one-halo galaxy power by a (two-halo unchanged), and leaves the one-halo galaxy-matter and matter-alignment power unchanged.", "quantifier": "all requests and factors; without beta_nl or response where stated", "why_tests_cant": "two-run property over all inputs", "anchors": ["src/onepower/pk.py:Spectra.power_spectrum_gg", "src/onepower/pk.py:Spectra.power_spectrum_gm", "src/onepower/hod.py:HaloOccupationDistribution.f_c", "src/onepower/hod.py:HaloOccupationDistribution.galaxy_linear_bias", "src/onepower/hod.py:HaloOccupationDistribution.avg_halo_mass_cen"]}
{"id": "C88", "title": "Spectra do not depend on which other wavenumbers are asked for", "statement": "Without dewiggling or hmcode recipes, each spectrum at a wavenumber is the same on any other wavenumber grid with the same first wavenumber. With another first wavenumber it is not: profiles are divided by their value at the first wavenumber of the grid, so u becomes u(k)/u(k_first).", "quantifier": "all requests, all sub-grids, all six spectra", "why_tests_cant": "two-run property over all grids", "anchors": ["src/onepower/hmi.py:HaloModelIngredients.u_dm", "src/onepower/pk.py:Spectra.power_spectrum_gg", "src/onepower/pk.py:Spectra.power_spectrum_mm"]}
{"id": "C89", "title": "Spectra do not depend on which other redshifts are asked for", "statement": "The matter spectrum at a redshift is the same on any other redshift grid. The galaxy and alignment spectra are the same when the mass function interpolated to the HOD redshifts is, in particular when those redshifts belong to both grids; otherwise they can differ.", "quantifier": "all requests, all sub-grids, all six spectra", "why_tests_cant": "two-run property over all grids", "anchors": ["src/onepower/pk.py:Spectra.power_spectrum_mm", "src/onepower/hod.py:HaloOccupationDistribution._interpolate", "src/onepower/pk.py:Spectra.power_spectrum_gg"]}
{"id": "C90", "title": "Each bin is computed as if it were alone", "statement": "The spectra of bin b in a request with any number of bins are those of the request holding only that bin's observable limits, redshift range and HOD parameters.", "quantifier": "all requests, bins, all six spectra", "why_tests_cant": "two-run property over any number of bins", "anchors": ["src/onepower/pk.py:Spectra.power_spectrum_gg", "src/onepower/hod.py:HaloOccupationDistribution.__init__", "src/onepower/pk.py:Spectra.power_spectrum_mm"]}
{"id": "C91", "title": "Which option files the pipeline module accepts", "statement": "setup succeeds exactly when every option it looks up has the right type, the options of every requested sample are present, nmass is not zero, counts are not negative and, for beta_nl, the emulator is installed and update_bnl is an integer. The requested spectra are exactly the flags set to true; the number of bins is the number of limits given, and every other setting handed on is the value of the option of its name or its documented default: names lower-cased where they name sections, suffixes prefixed with an underscore, each sample from the options with its own suffix.", "quantifier": "all option files, both installation states, any exception class for missing values", "why_tests_cant": "quantifies over all combinations of more than seventy options", "anchors": ["cosmosis_modules/onepower_interface.py:setup", "cosmosis_modules/onepower_interface.py:setup_pipeline_parameters", "cosmosis_modules/onepower_interface.py:setup_hod"]}
{"id": "C92", "title": "The documented defaults are the defaults", "statement": "Writing the documented default of an omitted option into the option file changes nothing, except for hod_section_name_ia, hod_section_name_ia_1, hod_section_name_ia_2 and nobs_*, which module.yaml gives defaults but setup requires. The default None of nonlinear_mode and hmcode_ingredients needs the exception for a missing value to be a ValueError.", "quantifier": "all option files and all subsets of the documented options", "why_tests_cant": "quantifies over all option files", "anchors": ["cosmosis_modules/onepower_interface.py:get_string_or_none", "cosmosis_modules/onepower_interface.py:setup_hmf_config", "cosmosis_modules/onepower_interface.py:setup_hod"]}
{"id": "C93", "title": "Grids of the pipeline module", "statement": "The mass grid has nmass points, starts at 10^log_mass_min, is uniform in the logarithm and stops one step before 10^log_mass_max, with neighbouring masses at most a factor 2 apart if log_mass_max - log_mass_min <= 0.3 nmass; the redshift grid runs from zmin_hmf to zmax_hmf; the wavenumbers are nk logarithmic points from the first to the last input wavenumber.", "quantifier": "all option files and input wavenumbers", "why_tests_cant": "quantifies over all sizes and ranges", "anchors": ["cosmosis_modules/onepower_interface.py:setup_hmf_config", "cosmosis_modules/onepower_interface.py:execute"]}
{"id": "C94", "title": "Options that have no effect", "statement": "Only the options of the requested samples matter, and options the module does not know are ignored without a message. So bnl, mead2020_correction, cm_model and profile in the example pipeline.ini have no effect: the example runs without nonlinear mode and without hmcode ingredients. output_suffix and hod_section_name_ia_2 are read, must be strings, and have no effect either.", "quantifier": "all option files, all unknown names and values", "why_tests_cant": "two-run property over all option files", "anchors": ["cosmosis_modules/onepower_interface.py:setup", "cosmosis_modules/onepower_interface.py:setup_hod"]}
{"id": "C95", "title": "Every halo model parameter gets its own option or block value", "statement": "After a successful call of the pipeline module each parameter of the Spectra object equals the value of its option or block entry, or the stated default: w0 from w, m_nu from mnu, log10T_AGN from logT_AGN, mb = 10^m_b, the profile numbers from the section named by profile_value_name, central and satellite settings not exchanged. The keywords passed are always parameters of Spectra, each once, and cover all of them but Neff, which keeps its default in every run. The input power spectra are reproduced at shared nodes, stay positive and within their bounds; beta_nl is computed for the same grids, masses and cosmology. A block that lacks a needed value, or whose redshifts do not cover zmin_hmf to zmax_hmf, is rejected before anything is written or changed.", "quantifier": "all option files, blocks, states of the module and Spectra implementations", "why_tests_cant": "quantifies over all options, blocks and earlier states, sixty keywords at once", "anchors": ["cosmosis_modules/onepower_interface.py:execute", "cosmosis_modules/onepower_interface.py:interpolate_in_z", "src/onepower/pk.py:Spectra.__init__"]}
{"id": "C96", "title": "A sampler's call does not depend on the calls before it", "statement": "Without beta_nl, or with update_bnl = 1, the outcome of a call and everything it writes are those of a call on a fresh module, whatever blocks were processed before and whether or not those calls failed part-way. With beta_nl, earlier calls matter only through the stored table and the call count.", "quantifier": "all configurations, all lists of earlier blocks, all Spectra implementations", "why_tests_cant": "two-run property over call histories of any length", "anchors": ["cosmosis_modules/onepower_interface.py:execute", "cosmosis_modules/onepower_interface.py:setup"]}
{"id": "C97", "title": "Which options the projection modules accept", "statement": "setup of the FFTLog and of the quadrature projection succeeds exactly when corr_type is wp or ds, sample is a string, every other option has the right type, the count is not negative and the grid can be built. The settings are then the options of their names, or the defaults: sections galaxy_power and wp, or matter_galaxy_power and ds, the same when the option is empty; 8192 points for FFTLog and 250 for the quadrature. Any other corr_type is a ValueError whatever else is set, and only corr_type and sample are needed.", "quantifier": "all option files, both modules", "why_tests_cant": "quantifies over all combinations of options", "anchors": ["cosmosis_modules/pk_to_real/pk_to_real.py:setup", "cosmosis_modules/pk_to_real/pk_to_real.py:CosmosisTransformer.__init__", "cosmosis_modules/pk_to_real/pk_to_real_ogata.py:setup"]}
{"id": "C98", "title": "What the projection modules leave in the block", "statement": "A successful run writes bin_1 .. bin_n, nbin, sample, rp, sep_name and save_name in its output section and changes nothing else; the bins are the projection of the block as it was before the run, even when the output section is one of the inputs. It succeeds when the sections of all bins, their n(z) and, for ds, one mean density are present. A run that fails leaves every other section as it was. With no bins it ends in an UnboundLocalError after nbin and sample have been written.", "quantifier": "all blocks, numbers of bins, suffixes and section names, both modules", "why_tests_cant": "quantifies over all blocks, with aliasing of sections", "anchors": ["cosmosis_modules/pk_to_real/pk_to_real.py:CosmosisTransformer.__call__", "cosmosis_modules/pk_to_real/pk_to_real_ogata.py:projection.transform", "cosmosis_modules/pk_to_real/pk_to_real.py:execute"]}
{"id": "C99", "title": "The projections find the spectra the pipeline module wrote", "statement": "After a successful run of the pipeline module, each galaxy and alignment spectrum of n bins is in sections base_1 .. base_n, or in base alone when n is 1, on the requested grids, with the one-halo, two-halo and total values of that bin, and no other section of these names is touched. A projection with suffixes 1..n, or none for a single bin, therefore finds all its sections and projects the total spectrum of bin j with the j-th n(z). Without suffixes for several bins, or with suffix 1 for a single bin, it fails.", "quantifier": "all configurations, blocks, numbers of bins and Spectra implementations", "why_tests_cant": "composition of two modules over all configurations", "anchors": ["cosmosis_modules/onepower_interface.py:save_pk_to_grid", "cosmosis_modules/pk_to_real/pk_to_real.py:CosmosisTransformer.__call__", "cosmosis_modules/onepower_interface.py:execute"]}
{"id": "C100", "title": "The correction undoes the fiducial cosmology of what the projection wrote", "statement": "After the FFTLog projection, and with the six cosmological parameters in the block, correct_cosmo_real succeeds when it is given one redshift per bin: each bin is rescaled by the ratio of the Hubble rates (wp) or of the critical densities (ds) at its own redshift, rp by the product of the distance ratios of all bins, nothing else changes; another number of redshifts is a ValueError and a missing parameter an error, without any change. After the quadrature projection it always fails, because that module leaves an empty save_name.", "quantifier": "all blocks, cosmologies, redshifts and numbers of bins", "why_tests_cant": "composition of two modules over all blocks", "anchors": ["cosmosis_modules/pk_to_real/correct_cosmo_real.py:execute", "cosmosis_modules/pk_to_real/pk_to_real.py:CosmosisTransformer.__call__", "cosmosis_modules/pk_to_real/pk_to_real_ogata.py:projection.transform"]}
{"id": "C101", "title": "Scale cuts keep the data vector, its labels and its covariance in step", "statement": "Every cut of a two-point file (bad values, cross bins, bin pairs, angular ranges, entry indices, choice of statistics), and every sequence of them, keeps the same positions, in the same order, in the labels, in the data vector and in both directions of the covariance. Cross-bin cuts keep equal bins only; pair cuts drop the named pairs; a range given for a bin pair is closed and a range given for a statistic open; index cuts drop the addressed entries of the one spectrum of that name; a choice keeps the named statistics regardless of case. One-point data are only touched by a choice. On a file whose columns fit together no cut fails except an index cut that is empty, out of range or names no single spectrum, and a choice that names an unknown statistic. A range given for one statistic also cuts every statistic whose name occurs in its name.", "quantifier": "all files, sequences of cuts, limits, pairs, indices and names", "why_tests_cant": "quantifies over all files and all sequences of cuts", "anchors": ["cosmosis_modules/legacy/scale_cuts/twopoint.py:TwoPointFile._mask_covmat", "cosmosis_modules/legacy/scale_cuts/twopoint.py:TwoPointFile.mask_scales", "cosmosis_modules/legacy/scale_cuts/twopoint.py:TwoPointFile.mask_indices", "cosmosis_modules/legacy/scale_cuts/twopoint.py:TwoPointFile.choose_data_sets"]}
{"id": "C102", "title": "The covariance is brought into the order of the measurements", "statement": "When a two-point file is opened, the covariance used with it has, for each pair of measurements, the block that the covariance header gives for their names, wherever in the header they stand; names the file does not measure are dropped; errors are the square roots of the diagonal. Opening succeeds whenever every measurement is named in the header.", "quantifier": "all headers, orders, lengths and covariances", "why_tests_cant": "quantifies over all orders of the header and of the measurements", "anchors": ["cosmosis_modules/legacy/scale_cuts/twopoint.py:TwoPointFile.get_cov_start", "cosmosis_modules/legacy/scale_cuts/twopoint.py:TwoPointFile.__init__", "cosmosis_modules/legacy/scale_cuts/twopoint.py:CovarianceMatrixInfo.get_error"]}
{"id": "C103", "title": "The scale-cut options say which points are used", "statement": "From the options of the scale-cuts module: the last use_stats gives the statistics; cross bins are cut when the last cut_cross is any non-empty text; every pair listed in a cut_pair is cut; for each statistic the last cut_bin, and for each statistic or bin pair the last keep_ang, counts; other keys have no effect. Without index cuts the data vector and covariance are then exactly the entries whose labels pass all of these, in file order. Setup fails without use_stats. Hence cut_cross = False cuts, a keep_ang key of four words (keep_ang_psi_gm, keep_ang_xip_1) is ignored, and psi_gg and psi_gm cannot be cut by pair or index (KeyError).", "quantifier": "all option lists, number formats, files and covariances", "why_tests_cant": "quantifies over all option lists", "anchors": ["cosmosis_modules/legacy/scale_cuts/wrapper_twopoint.py:LabelConvention.makeScaleCutsArgs", "cosmosis_modules/legacy/scale_cuts/scale_cuts.py:setup", "cosmosis_modules/legacy/scale_cuts/wrapper_twopoint.py:TwoPointWrapper.cutScales", "cosmosis_modules/legacy/scale_cuts/wrapper_twopoint.py:TwoPointWrapper.keepScales"]}
{"id": "C104", "title": "Theory and data are compared entry by entry", "statement": "If the uncut theory has the labels of the selected data in the same order, then after setup and execute the theory vector, the data vector and the covariance have the same labels entry by entry, each theory value being the one computed for that label. An index cut for a statistic that is not compared makes every evaluation fail. The theory comes in a fixed order of statistics, so a file that lists them in another order is compared crosswise without an error; and a statistic written in upper case in use_stats selects the data but not the theory.", "quantifier": "all files, options, data blocks and section names", "why_tests_cant": "relates two code paths over all files and options", "anchors": ["cosmosis_modules/legacy/scale_cuts/scale_cuts.py:execute", "cosmosis_modules/legacy/scale_cuts/scale_cuts.py:setup", "cosmosis_modules/legacy/scale_cuts/wrapper_twopoint.py:TwoPointWrapper.makeMeanVector"]}
{"id": "C105", "title": "The theory vector reads every bin pair the data block holds", "statement": "For galaxy-galaxy lensing the theory takes bin_i_j for lenses i and sources j, both counted from 1 up to the first missing one; for the other statistics bin_j_i for j from i on, up to the first missing one; each with the angles of its section, labelled with its pair and angular bin, in that order. Statistics come in the fixed order wtheta, gammat, xip, xim, three band powers, two psi statistics, E_n. The angle of a band power is the geometric mean of its limits. A section without bin_1_1 is a ValueError.", "quantifier": "all data blocks, numbers of bins up to 1000 and angles", "why_tests_cant": "quantifies over all data blocks", "anchors": ["cosmosis_modules/legacy/scale_cuts/scale_cuts.py:execute", "cosmosis_modules/legacy/scale_cuts/wrapper_twopoint.py:SpectrumBuilder.addTomo", "cosmosis_modules/legacy/scale_cuts/wrapper_twopoint.py:SpectrumBuilder.makeSpectrum"]}
{"id": "C106", "title": "The likelihood of the cut vectors has its maximum at the data", "statement": "The log-likelihood is minus half the quadratic form of the residual with the inverse of the cut covariance. If the covariance of the file is positive definite, so is the covariance after any cuts; the log-likelihood is then at most 0 and 0 exactly when theory and data agree. Vectors of different lengths are a ValueError, except that a theory vector with a single entry is silently compared with every data point.", "quantifier": "all files, cuts, covariances and theory vectors", "why_tests_cant": "quantifies over all cuts and all positive definite covariances", "anchors": ["cosmosis_modules/legacy/utils/mini_like.py:execute", "cosmosis_modules/legacy/scale_cuts/scale_cuts.py:setup"]}
{"id": "C107", "title": "A mock vector written into the file is the vector read back", "statement": "With no one-point data, or one one-point measurement of a single bin, replaceMeanVector keeps labels and covariance and makeMeanVector then returns the vector given. With one one-point measurement of several bins the one-point data are left with bins of different lengths and makeMeanVector fails; with two one-point measurements of a single bin replaceMeanVector fails.", "quantifier": "all files and vectors", "why_tests_cant": "quantifies over all files and vectors", "anchors": ["cosmosis_modules/legacy/scale_cuts/wrapper_twopoint.py:TwoPointWrapper.replaceMeanVector", "cosmosis_modules/legacy/scale_cuts/wrapper_twopoint.py:TwoPointWrapper.makeMeanVector"]}
{"id": "C108", "title": "The observables of a prediction are laid out as the options say", "statement": "After a successful setup of predict_observable there is one lower limit, one upper limit and one count per suffix. With edges the observable values of a bin are ten to the centres of that many equal intervals between its limits, without edges they are log-spaced from limit to limit, both included. Limits or counts of another length, and weighted binning without edges, are a ValueError.", "quantifier": "all option files, suffixes, limits and counts", "why_tests_cant": "quantifies over all limits, counts and numbers of bins", "anchors": ["cosmosis_modules/legacy/predict_observable/predict_observable.py:setup"]}
{"id": "C109", "title": "A prediction is the observable function at the requested values, averaged over the redshift distribution", "statement": "Without weighted binning each predicted value is the linear interpolation of the observable function at that observable, and zero outside the tabulated range; a function tabulated in redshift is multiplied by the distribution of its own bin, interpolated to the redshifts of the table and zero outside, and integrated with Simpson's rule, so a function that does not evolve is returned unchanged by a normalised distribution. Bin i goes to bin_i, with its observables in obs_i and mass_i, and nbin and sample are set; no other section changes and no other value of the output section. It succeeds when all inputs are there and the output names are free; a second run on the same block fails. A function tabulated at a single redshift is predicted to be zero everywhere.", "quantifier": "all blocks, tables, distributions, suffixes and numbers of bins", "why_tests_cant": "quantifies over all tables, distributions and blocks", "anchors": ["cosmosis_modules/legacy/predict_observable/predict_observable.py:execute", "cosmosis_modules/legacy/predict_observable/predict_observable.py:load_and_interpolate_obs", "cosmosis_modules/legacy/predict_observable/predict_observable.py:load_redshift"]}
{"id": "C110", "title": "Weighted binning averages the observable function over the galaxies of the bin", "statement": "With weighted binning the j-th value is the mean of the interpolated function over the listed observables in the half-open interval above edge j up to edge j+1, weighted by their counts, or, without a file, over 10000 equal points between the lowest and the highest limit of all bins. With non-negative counts it lies between the least and the greatest value of the function in the bin, and the values times the counts add up to the sum over the whole range. An observable on the lowest edge belongs to no bin, and for a function tabulated in redshift only its first redshift is used, whatever the redshift distribution.", "quantifier": "all files of counts, functions, limits and numbers of bins", "why_tests_cant": "quantifies over all distributions and functions", "anchors": ["cosmosis_modules/legacy/predict_observable/predict_observable.py:execute"]}
{"id": "C111", "title": "The volume correction is the ratio of the survey volumes", "statement": "With correct_cosmo each predicted value is the uncorrected one times the volume between zmin and zmax of its own bin in the cosmology of the block over that in the cosmology of the data, in units of h; nothing changes when the two cosmologies agree. Redshift limits that are not one per bin are a ValueError before anything is written.", "quantifier": "all blocks, cosmologies, distances and redshift limits", "why_tests_cant": "two-run property over all cosmologies", "anchors": ["cosmosis_modules/legacy/predict_observable/predict_observable.py:execute"]}
{"id": "C112", "title": "The prediction finds the observable functions the pipeline module wrote", "statement": "The tables that save_obs_results writes for bin k, in redshift or flat, are the ones predict_observable reads for the suffix k, with the same observables, redshifts and values. Without the option suffixes it looks for suffix _1 behind another underscore, a name the pipeline module never writes, and fails without writing anything.", "quantifier": "all tables, numbers of bins and blocks", "why_tests_cant": "composition of two modules over all tables", "anchors": ["cosmosis_modules/onepower_interface.py:save_obs_results", "cosmosis_modules/legacy/predict_observable/predict_observable.py:load_and_interpolate_obs", "cosmosis_modules/legacy/predict_observable/predict_observable.py:setup"]}
{"id": "C113", "title": "The two-point likelihood is the Gaussian form of theory minus data", "statement": "When mini_2pt_like succeeds, <like_name>_LIKE is minus half the quadratic form of the residual with the inverse covariance and <like_name>_CHI2 the form itself, over the theory of all sections and bins in order; with keep_theory_vector the theory and data vectors are written. With the inverse of a positive definite covariance of the size of the data the log-likelihood is at most 0, and 0 exactly when theory equals data. A covariance smaller than the data is a ValueError; of a larger one only the leading block of the inverse enters, unnoticed. A call that fails changes nothing.", "quantifier": "all data, theory, covariances, sections and numbers of bins", "why_tests_cant": "quantifies over all vectors, matrices and layouts", "anchors": ["cosmosis_modules/legacy/likelihood_ds_wp/mini_2pt_like.py:execute"]}
{"id": "C114", "title": "Each data file of the two-point likelihood meets one theory bin", "statement": "A successful setup reads the files in the order of their names, x and y from the first two listed columns, and inverts the covariance; the other settings are the options. execute pairs file k with the k-th bin of the sections in order, is a ValueError for any other number of bins, and runs when the theory is there and covers the data. File 10 stands before file 2. Three columns, and a covariance without inverse, always end in a NameError.", "quantifier": "all options, file lists, columns, blocks", "why_tests_cant": "quantifies over all file lists and sections", "anchors": ["cosmosis_modules/legacy/likelihood_ds_wp/mini_2pt_like.py:setup", "cosmosis_modules/legacy/likelihood_ds_wp/mini_2pt_like.py:execute"]}
{"id": "C115", "title": "Interpolated theory is linear in the logarithm of the separation", "statement": "In interpolate mode the theory at a data point is the chord in ln x between the neighbouring theory points: unique, exact for theory linear in ln x, equal to the theory at its nodes and between the neighbouring values elsewhere. A point the theory does not cover stops the run with nothing written. Separations given in another unit of length with the same physical values give the same result.", "quantifier": "all theory tables, data points and units", "why_tests_cant": "quantifies over all tables and points; two-run property for units", "anchors": ["cosmosis_modules/legacy/likelihood_ds_wp/mini_2pt_like.py:execute"]}
{"id": "C116", "title": "Integrated theory is the trapezoid integral over the bin around each point", "statement": "In integrate mode the bin of a point is bounded by geometric means with its neighbours and by the same ratio at the ends, each point strictly inside its bin, neighbours sharing an edge; the theory is the trapezoid integral over the theory points in the half-open bin. It is not divided by the width: constant theory gives the constant times the distance between first and last theory point. A bin with at most one theory point gives zero. The unit option has no effect.", "quantifier": "all data points, theory tables and units", "why_tests_cant": "quantifies over all tables and bins", "anchors": ["cosmosis_modules/legacy/likelihood_ds_wp/mini_2pt_like.py:setup", "cosmosis_modules/legacy/likelihood_ds_wp/mini_2pt_like.py:execute"]}
{"id": "C117", "title": "Correlated priors are the inputs times the Cholesky root", "statement": "correlated_priors writes to output i the i-th row of the root times all inputs, read before anything is written, and changes nothing else. With the root of a covariance output i depends on the first i+1 inputs only, the chi-square of the outputs is the sum of the squared inputs, and inputs of unit sample covariance get the covariance of the file. Options list section/name words. A covariance of another size is a ValueError with nothing written; more outputs than inputs are an IndexError after the others have been written.", "quantifier": "all blocks, parameter lists, covariances and samples", "why_tests_cant": "quantifies over all covariances and samples", "anchors": ["cosmosis_modules/legacy/utils/correlated_priors.py:setup", "cosmosis_modules/legacy/utils/correlated_priors.py:execute"]}
{"id": "C118", "title": "The likelihood finds what the projections and the prediction wrote", "statement": "After a successful projection to wp or ds the likelihood finds the number of bins, and for each bin the separations and the values. After a successful prediction into any other section it finds the bins with their observables. A projection into a section of another name is not readable: every likelihood that lists it fails.", "quantifier": "all projections, predictions, blocks", "why_tests_cant": "composition of modules over all blocks", "anchors": ["cosmosis_modules/legacy/likelihood_ds_wp/mini_2pt_like.py:execute", "cosmosis_modules/legacy/predict_observable/predict_observable.py:execute"]}
{"id": "C119", "title": "Resampled spectra are linear in redshift and in the logarithm of the wavenumber", "statement": "For a spectrum set to extrapolate, each bin is written on the redshifts and wavenumbers of the linear matter spectrum with the value linear in redshift, then linear in log k, of its input table: outside the table the last chord is continued in log k, and in redshift for option 1, while other redshifts give zero for option 0. The value is unique, equals the table at its nodes, and does not depend on the sign of the table. matter_power_nl and, where writing may replace, matter_power_nl_mead are resampled in place.", "quantifier": "all tables, grids, bins and options", "why_tests_cant": "quantifies over all tables and grids", "anchors": ["cosmosis_modules/legacy/add_and_upsample/add_and_upsample.py:extrapolate_power", "cosmosis_modules/legacy/add_and_upsample/add_and_upsample.py:execute"]}
{"id": "C120", "title": "Red and blue spectra combine with the fractions of their own redshift", "statement": "For a spectrum set to add, each bin is the resampling of f^2 red + (1-f)^2 blue for two galaxy tracers (gg, II, gI) and f red + (1-f) blue for one (gm, mI), where f is linear in redshift between the entries of the file, and equal to them there. Two equal populations do not give themselves back (f^2+(1-f)^2 < 1), and beyond the file f leaves [0,1], so positive spectra can give a negative one.", "quantifier": "all tables, fractions, grids and bins", "why_tests_cant": "quantifies over all tables and fractions", "anchors": ["cosmosis_modules/legacy/add_and_upsample/add_and_upsample.py:add_red_and_blue_power", "cosmosis_modules/legacy/add_and_upsample/add_and_upsample.py:execute"]}
{"id": "C121", "title": "The combination runs on a complete block and writes only its outputs", "statement": "execute succeeds when every requested input is there and nothing stands in the way of the outputs, and only if the inputs are there with matching shapes and equal numbers of bins. Only z, k_h and p_k of the requested outputs change, even when it fails. Different numbers of red and blue bins are an Exception after the extrapolations have been written. A missing mead table is skipped. If put_grid does not replace, matter can never be resampled and an empty input suffix always fails. setup reads exactly the documented options, and the fraction file only if something is added.", "quantifier": "all blocks, options and numbers of bins", "why_tests_cant": "quantifies over all blocks and options, including failing runs", "anchors": ["cosmosis_modules/legacy/add_and_upsample/add_and_upsample.py:setup", "cosmosis_modules/legacy/add_and_upsample/add_and_upsample.py:execute"]}
{"id": "C122", "title": "The legacy combination agrees with UpsampledSpectra at the redshifts of the tables", "statement": "For the same two populations, grid, fractions and extrapolation, the legacy module and UpsampledSpectra give the same total spectrum at every output redshift that is a redshift of the tables, and at all redshifts if the fraction is constant. Elsewhere they differ: one combines and then interpolates, the other interpolates and then combines.", "quantifier": "all populations, tables, grids and fractions", "why_tests_cant": "compares two implementations over all inputs", "anchors": ["cosmosis_modules/legacy/add_and_upsample/add_and_upsample.py:add_red_and_blue_power", "src/onepower/add.py:UpsampledSpectra.results"]}
{"id": "C123", "title": "Luminosity averages weight each galaxy by Simpson's rule", "statement": "With the dependence 'luminosity', the amplitude at a redshift with galaxies brighter than one half is the given amplitude times the mean over its galaxies of a Simpson weight times the power of the middle of the galaxy's luminosity bin over the pivot (two slopes for centrals if beta_two is given). Range and bins are determined by the sample and the middle is within half a bin of the luminosity. The weights lie between 1/3 and 4/3, so the mean does too; it is not normalised: exponent zero need not give the amplitude back. A redshift without galaxies has none, for exponents that are not negative.", "quantifier": "all samples, redshift grids, exponents and pivots", "why_tests_cant": "quantifies over all galaxy samples; the deviation from a plain mean depends on the bin a galaxy falls in", "anchors": ["src/onepower/ia.py:AlignmentAmplitudes.alignment_gi", "src/onepower/ia.py:AlignmentAmplitudes.gamma_1h_amp", "src/onepower/ia.py:AlignmentAmplitudes.compute_luminosity_pdf"]}
{"id": "C124", "title": "The legacy alignment amplitudes are those of AlignmentAmplitudes", "statement": "For options and parameters saying the same, ia_amplitudes.py writes the alignment_gi and gamma_1h_amp of AlignmentAmplitudes with one shared pivot, the dependence, and for 'halo_mass' the pivot mass and slope. setup succeeds exactly if both dependences are valid and, for 'luminosity', there are at least two redshifts; execute succeeds exactly if both amplitudes exist and none of its outputs is there yet. Nothing else changes, also when it fails; without the central amplitude nothing changes, but a failure at the satellites leaves the centrals written. A second run on the same block fails.", "quantifier": "all options, blocks, samples and parameters", "why_tests_cant": "compares two implementations over all inputs, including failing runs", "anchors": ["cosmosis_modules/legacy/ia/ia_amplitudes.py:setup", "cosmosis_modules/legacy/ia/ia_amplitudes.py:execute", "src/onepower/ia.py:AlignmentAmplitudes"]}
{"id": "C125", "title": "The legacy HOD module writes what the class HOD computes", "statement": "For options and parameters saying the same, hod_interface.py writes for every bin the occupations, number densities, central and satellite fractions, linear biases and stellar fraction of the class HOD on its grid, for the models Cacciato, Zheng and Zhai; what the class returns at its own redshifts is interpolated from these entries. In mode obs_z it writes ln(10) times the observable times the observable function, equal to the class on its own grid if no file of observables is given. The average halo mass is divided by the density here, and not in the class.", "quantifier": "all options, blocks, numbers of bins, grids and parameters", "why_tests_cant": "compares two implementations over all inputs", "anchors": ["cosmosis_modules/legacy/hod/hod_interface.py:execute", "cosmosis_modules/legacy/hod/hod_lib_class.py:HOD", "src/onepower/hod.py:HOD"]}
{"id": "C126", "title": "The legacy HOD module runs exactly if no occupation is negative", "statement": "setup succeeds exactly if the unit is 1/h or 1/h^2, observables are saved for Cacciato only, and the grids fit (two rows at least in a file); mass limits never work. On a fresh block execute succeeds exactly if the tables have the shapes of their axes and no occupation is negative, as valid parameters guarantee. A negative occupation is a ValueError, a missing parameter an Exception, in the first bin with only two counts written; an unknown model is a KeyError with nothing written. Other sections never change and a second run on the same block fails. The counts, labels, the table over all bins and the functions of the other two modes are as documented, except that the relation between halo mass and mean observable has one value only.", "quantifier": "all options, blocks, numbers of bins and parameters", "why_tests_cant": "quantifies over all blocks and options, including failing runs", "anchors": ["cosmosis_modules/legacy/hod/hod_interface.py:setup", "cosmosis_modules/legacy/hod/hod_interface.py:execute", "cosmosis_modules/legacy/hod/hod_interface.py:load_data"]}
{"id": "C127", "title": "The legacy radial alignment tables are those of SatelliteAlignment", "statement": "For complete input with 1 to as many points as masses, a successful run of the legacy module leaves for every redshift the masses sampled from first to last, the wavenumbers, and at each the value wkm_f_ell computes from the multipoles of the class. If no quantity of the last halo occurs earlier, masses and values are those of SatelliteAlignment, and get_satellite_alignment on that block interpolates them as the class does. With ties the class keeps fewer radii than masses while the module does not. The amplitudes may be those ia_amplitudes.py left, which are gamma_1h_amp of the class.", "quantifier": "all masses, redshifts, profiles, slopes, wavenumbers and Hankel transforms", "why_tests_cant": "an equality of two programs for all tables and sample sizes", "anchors": ["cosmosis_modules/legacy/ia/ia_radial_interface.py:execute", "cosmosis_modules/legacy/ia/ia_radial_lib.py:wkm_f_ell", "cosmosis_modules/legacy/pk/pk_util.py:get_satellite_alignment", "src/onepower/ia.py:SatelliteAlignment"]}
{"id": "C128", "title": "The legacy radial alignment module runs for slopes 0 and -2 only", "statement": "setup succeeds exactly if nk is not negative, ell_max is at most 11 and N_hankel is not 0. With complete input on a fresh block execute succeeds exactly if the slope is 0 or -2, or there is no multipole; for any other slope it is a TypeError and nothing is written, although the class computes it. More points than masses is a ValueError, none a ZeroDivisionError; a negative number is accepted and reverses the masses. Only the tables of the sample in section wkm change, a failing run on a fresh block changes nothing, a second run fails, and samples with different suffixes leave each other alone.", "quantifier": "all options, blocks, slopes, redshifts and suffixes", "why_tests_cant": "quantifies over all blocks and options, including failing runs", "anchors": ["cosmosis_modules/legacy/ia/ia_radial_interface.py:setup", "cosmosis_modules/legacy/ia/ia_radial_interface.py:execute", "cosmosis_modules/legacy/ia/ia_radial_interface.py:downsample_halo_parameters", "cosmosis_modules/legacy/ia/ia_radial_lib.py:calculate_f_ell"]}
{"id": "C129", "title": "The legacy power-spectrum module writes the spectra of Spectra", "statement": "For a block without massive neutrinos that agrees with a Spectra, a successful run of pk_interface.py writes the matter tables (one-halo, two-halo, total) of Spectra and, for every bin, its galaxy, galaxy-matter and galaxy-intrinsic tables and linear biases, in every mode and with the response. The totals of the matter-intrinsic and intrinsic spectra agree too; their two-halo tables do not: the first lacks the beta_nl term, the second has the central-satellite in place of the satellite-satellite term (except with Fortuna). A neutrino fraction f multiplies the one-halo matter table by (1-f)^2 only.", "quantifier": "all options, blocks, grids, numbers of bins and halo-model ingredients", "why_tests_cant": "compares two implementations over all inputs, mode by mode", "anchors": ["cosmosis_modules/legacy/pk/pk_interface.py:execute", "cosmosis_modules/legacy/pk/pk_lib.py", "src/onepower/pk.py:Spectra"]}
{"id": "C130", "title": "The legacy power-spectrum module: options, effects and failures", "statement": "setup succeeds exactly on its options as documented. However execute ends, only the section of the matter power and those of the requested spectra of the bins change. Without a spectrum that involves matter, the others run only with the point mass or the fitted feedback, and never with the response. The Poisson parameters have no usable default and beta_nl must be an array in memory. On an overwriting block a run fails having changed nothing or leaves the matter tables, whatever fails later. A module that writes the matter power as matter_power_nl ignores the non-linear power it was given, also with Fortuna.", "quantifier": "all options, blocks and numbers of bins, including failing runs", "why_tests_cant": "quantifies over all blocks and options, including failing runs", "anchors": ["cosmosis_modules/legacy/pk/pk_interface.py:setup", "cosmosis_modules/legacy/pk/pk_interface.py:execute", "cosmosis_modules/legacy/pk/pk_lib.py"]}
{"id": "C131", "title": "The legacy beta_nl module serves calls from its cache on a fixed schedule", "statement": "With bnl on and update_bnl = u > 0, in any chain of calls of bnl_interface.py or bnl_interface_class.py, failing ones included, the array a call writes was computed from the block of counted call m - m mod u, m being the number of calls counted before it. If every block can be served, call i has the table of call i - i mod u, whatever its own cosmology and wavenumbers; with u = 1 it has its own. A call that cannot be served changes nothing and the next tries again; a call whose entry exists fails but is counted. Without bnl a single zero is written. bnl_interface_delete.py replaces the array exactly outside the test sampler and unless keep_bnl, twice is as once, and the power-spectrum module then fails.", "quantifier": "all chains of calls, blocks, periods, emulators and samplers", "why_tests_cant": "an invariant of a state kept over unboundedly many calls", "anchors": ["cosmosis_modules/legacy/bnl/bnl_interface.py:execute", "cosmosis_modules/legacy/bnl/bnl_interface_class.py:execute", "cosmosis_modules/legacy/bnl_delete/bnl_interface_delete.py:execute"]}
{"id": "C132", "title": "The legacy beta_nl table is that of NonLinearBias with the wavenumber last", "statement": "On the same cosmology the legacy computation and NonLinearBias without redshift dependence succeed together and give the same value for every pair of masses and wavenumber, or fail with the same error: the fitted shot noise is a mean and copying below the diagonal is filling both sides. The array is handed to pk_interface.py as is, symmetric in the masses. The array of bnl_interface_class.py has the wavenumber first: it is refused unless there are as many wavenumbers as masses, and then masses and wavenumbers are confused. The two cosmologies coincide exactly if omega_lambda and 1 - omega_m - 0.00064 are clipped to the same value. setup makes nmass masses from the least on, evenly in logarithm, the greatest excluded.", "quantifier": "all emulators, masses, wavenumbers, cosmologies and least-squares fits", "why_tests_cant": "compares two implementations for every emulator", "anchors": ["cosmosis_modules/legacy/bnl/bnl_util.py:compute_bnl_darkquest", "cosmosis_modules/legacy/bnl/bnl_interface.py:execute", "cosmosis_modules/legacy/bnl/bnl_interface_class.py:execute", "src/onepower/bnl.py:NonLinearBias"]}
{"id": "C133", "title": "The legacy halo-model ingredients: every call and every redshift stands alone", "statement": "halo_model_ingredients_halomod.py keeps one DMHaloModel and updates it in place from redshift to redshift and from call to call. In any chain of calls, failing ones included, a call still writes what it would write as the first after setup, and each redshift has the tables a run with that redshift alone gives; the virial radii are those of the first redshift, the mean density that of the last. A call succeeds exactly if it does for each redshift alone; without redshifts it is an IndexError. The Mead corrections are switched on by two exact names, any other value means none; with them hmf, bias, mass definition and concentration options are dropped. Wavenumbers span those of the linear power and every transform is one at the first.", "quantifier": "all options, blocks, chains of calls, numbers of redshifts and halo-model libraries that meet the stated laws", "why_tests_cant": "an invariant of an object mutated over unboundedly many turns and calls", "anchors": ["cosmosis_modules/legacy/halo_model_ingredients/halo_model_ingredients_halomod.py:setup", "cosmosis_modules/legacy/halo_model_ingredients/halo_model_ingredients_halomod.py:execute"]}
{"id": "C134", "title": "The legacy halo-model ingredients against HaloModelIngredients", "statement": "For w0waCDM the growth equation, its initial values, accumulated growth, collapse threshold and virial overdensity are those of hmi.py. Without corrections concentrations, scale radii and profiles of centrals and satellites are those of the class on the same choices, and the virial radii those of its first redshift. With or without, mass function, bias, peak height, densities, sigma_8 and neutrino fraction agree. With corrections centrals have the bloating of the class and concentration K (1+zf)/(1+z), norm_cen being ignored; satellites keep norm_sat and eta_sat of the block, where the class uses K and the fitted bloating; the scale radii written belong to the placeholder relation of setup. Corrected concentrations are at least their normalisation, with equality exactly for seeds below the threshold.", "quantifier": "all options, blocks, cosmologies, growth functions and halo-model libraries that meet the stated laws", "why_tests_cant": "compares two implementations over all inputs", "anchors": ["cosmosis_modules/legacy/halo_model_ingredients/halo_model_ingredients_halomod.py:execute", "cosmosis_modules/legacy/halo_model_ingredients/halo_model_utility.py", "src/onepower/hmi.py:HaloModelIngredients"]}
{"id": "C135", "title": "The legacy HOD module without a loop never completes", "statement": "hod_interface_no_loop.py sets up exactly as hod_interface.py does. Its execute passes the class of src/onepower/hod.py an argument halobias, while the class takes halo_bias and hands every other name to hmf's Component. If Component refuses a name that is no default, execute fails for every block, and the block has gained at most nbins, observable_z, obs_func_definition and observable_mode. On a fresh block that has all hod_interface.py needs, with the halo bias, the error is the ValueError of the class. halobias is the only name in the way: a Component that takes it lets execute go on, with every parameter of the model given once, bin by bin as the block has them, and the masses, redshifts, mass function and assembly-bias parameters of the block; halo_bias is then never given.", "quantifier": "all options, blocks, models and numbers of bins, and whatever follows the making of the class", "why_tests_cant": "a claim about all blocks and about code that is never reached", "anchors": ["cosmosis_modules/legacy/hod/hod_interface_no_loop.py:setup", "cosmosis_modules/legacy/hod/hod_interface_no_loop.py:execute", "src/onepower/hod.py:HaloOccupationDistribution"]}
