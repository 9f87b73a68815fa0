{
 "claims": [
  {
   "property": "C01",
   "status": "proved",
   "theorems": [
    "C01_simpson_linear",
    "C01_simpson_exact_parabola",
    "C01_simpson_two_points_exact_affine"
   ],
   "note": ""
  },
  {
   "property": "C02",
   "status": "proved",
   "theorems": [
    "C02_integral_nonneg_on_log_uniform_grid",
    "C02_integral_monotone",
    "C02_coarse_grid_refuted"
   ],
   "note": ""
  },
  {
   "property": "C03",
   "status": "proved",
   "theorems": [
    "C03_fixed_weights_are_trapezoid",
    "C03_exact_for_affine",
    "C03_weights_sum_to_range",
    "C03_nonneg",
    "C03_rejects_short_grids"
   ],
   "note": ""
  },
  {
   "property": "C04",
   "status": "proved",
   "theorems": [
    "C04_node",
    "C04_between_neighbours",
    "C04_exact_for_affine",
    "C04_linear_in_data",
    "C04_fill_outside",
    "C04_fill_pair_outside",
    "C04_fill_irrelevant_inside",
    "C04_strict_raises_outside",
    "C04_chord"
   ],
   "note": ""
  },
  {
   "property": "C05",
   "status": "proved",
   "theorems": [
    "C05_total_occupation"
   ],
   "note": ""
  },
  {
   "property": "C06",
   "status": "proved",
   "theorems": [
    "C06_number_densities_add",
    "C06_number_density_is_the_mass_integral",
    "C06_number_density_nonneg"
   ],
   "note": ""
  },
  {
   "property": "C07",
   "status": "proved",
   "theorems": [
    "C07_fractions_sum_to_one",
    "C07_fractions_in_unit_interval",
    "C07_fractions_vanish_outside",
    "C07_fractions_are_density_ratios"
   ],
   "note": ""
  },
  {
   "property": "C08",
   "status": "proved",
   "theorems": [
    "C08_bias_adds",
    "C08_bias_between_halo_biases",
    "C08_bias_constant",
    "C08_bias_is_the_weighted_integral"
   ],
   "note": ""
  },
  {
   "property": "C09",
   "status": "proved",
   "theorems": [
    "C09_mean_halo_mass_bounded",
    "C09_mean_halo_mass_value",
    "C09_below_the_mass_grid_refuted"
   ],
   "note": "The naive expectation (value inside the mass grid) is refuted by C09_below_the_mass_grid_refuted: mass_avg divides the mean mass of centrals by the density of all galaxies."
  },
  {
   "property": "C10",
   "status": "proved",
   "theorems": [
    "C10_central_occupation_is_a_probability",
    "C10_central_occupation_monotone",
    "C10_half_at_Mmin",
    "C10_step_at_Mmin"
   ],
   "note": ""
  },
  {
   "property": "C11",
   "status": "proved",
   "theorems": [
    "C11_satellites_nonneg",
    "C11_satellites_monotone",
    "C11_zheng_cutoff",
    "C11_zheng_above_cutoff",
    "C11_simple_cutoff",
    "C11_zehavi_unit_at_Msat",
    "C11_zehavi_power_law",
    "C11_simple_is_zehavi_above_Mmin",
    "C11_zhai_is_damped_zehavi"
   ],
   "note": ""
  },
  {
   "property": "C12",
   "status": "proved",
   "theorems": [
    "C12_zheng_without_scatter_has_zehavi_centrals",
    "C12_zheng_satellites_tend_to_zehavi"
   ],
   "note": ""
  },
  {
   "property": "C13",
   "status": "proved",
   "theorems": [
    "C13_central_decoration_neutral_at_zero",
    "C13_satellite_decoration_scales",
    "C13_satellite_decoration_neutral_at_zero",
    "C13_decoration_preserves_probability",
    "C13_central_decoration_value",
    "C13_step_models_ignore_central_decoration"
   ],
   "note": ""
  },
  {
   "property": "C14",
   "status": "proved",
   "theorems": [
    "C14_obs_func_splits",
    "C14_stellar_fraction_splits",
    "C14_obs_func_nonneg",
    "C14_stellar_fraction_nonneg",
    "C14_cacciato_centrals_are_lognormal",
    "C14_cacciato_satellites_are_schechter",
    "C14_obs_func_integrates_over_haloes",
    "C14_central_distribution_function",
    "C14_stellar_fraction_is_mean_observable_over_mass",
    "C14_stellar_fraction_units"
   ],
   "note": ""
  },
  {
   "property": "C15",
   "status": "proved",
   "theorems": [
    "C15_observable_range",
    "C15_observable_range_from_file",
    "C15_observables_increasing",
    "C15_redshift_range",
    "C15_bins_returned",
    "C15_bins_returned_refuted",
    "C15_scalar_parameters_rejected"
   ],
   "note": "C15_bins_returned_refuted: zip(zmin, zmax, strict=False) drops bins silently. Finding: scalar HOD parameters raise IndexError with two or more bins."
  },
  {
   "property": "C16",
   "status": "proved",
   "theorems": [
    "C16_galaxy_and_alignment_totals_add_up",
    "C16_matter_total_adds_up"
   ],
   "note": ""
  },
  {
   "property": "C17",
   "status": "proved",
   "theorems": [
    "C17_clustering_is_bias_squared",
    "C17_bias_is_the_hod_bias"
   ],
   "note": ""
  },
  {
   "property": "C18",
   "status": "proved",
   "theorems": [
    "C18_two_halo_terms_consistent"
   ],
   "note": ""
  },
  {
   "property": "C19",
   "status": "proved",
   "theorems": [
    "C19_large_scales_are_linear",
    "C19_first_wavenumber_is_linear"
   ],
   "note": ""
  },
  {
   "property": "C20",
   "status": "proved",
   "theorems": [
    "C20_central_matter_alignment",
    "C20_central_alignment_autopower",
    "C20_default_and_fortuna_agree"
   ],
   "note": ""
  },
  {
   "property": "C21",
   "status": "proved",
   "theorems": [
    "C21_alignment_spectra_scale",
    "C21_zero_amplitude_vanishes",
    "C21_other_spectra_unaffected"
   ],
   "note": ""
  },
  {
   "property": "C22",
   "status": "proved",
   "theorems": [
    "C22_central_satellite_cross_term",
    "C22_cross_spectra_are_sums",
    "C22_square_of_summed_fields_refuted"
   ],
   "note": "Finding: the cross term is counted once while gg counts it twice; C22_square_of_summed_fields_refuted gives a witness."
  },
  {
   "property": "C23",
   "status": "proved",
   "theorems": [
    "C23_signs_in_default_mode",
    "C23_signs_in_fortuna_mode",
    "C23_physical_samples_qualify",
    "C23_same_sign_refuted"
   ],
   "note": "Finding: gi carries the opposite sign of mi; C23_same_sign_refuted gives a witness."
  },
  {
   "property": "C24",
   "status": "proved",
   "theorems": [
    "C24_matter_is_the_nonlinear_power",
    "C24_common_rescaling"
   ],
   "note": ""
  },
  {
   "property": "C25",
   "status": "proved",
   "theorems": [
    "C25_correction_is_bilinear",
    "C25_correction_is_symmetric",
    "C25_constant_correction",
    "C25_zero_table_is_the_default_mode",
    "C25_where_the_correction_enters",
    "C25_where_the_correction_enters_alignment"
   ],
   "note": ""
  },
  {
   "property": "C26",
   "status": "proved",
   "theorems": [
    "C26_hmcode_total",
    "C26_hmcode_terms",
    "C26_transition_properties"
   ],
   "note": ""
  },
  {
   "property": "C27",
   "status": "proved",
   "theorems": [
    "C27_factors_are_dampings",
    "C27_scales_mean_what_they_say",
    "C27_hmcode_half_damping",
    "C27_one_halo_truncation_acts",
    "C27_two_halo_truncation_acts",
    "C27_requested_two_halo_scale_refuted"
   ],
   "note": "Finding: two_halo_ktrunc is never used beyond being None or not; C27_requested_two_halo_scale_refuted."
  },
  {
   "property": "C28",
   "status": "proved",
   "theorems": [
    "C28_effective_power_is_a_mixture",
    "C28_absent_in_other_modes"
   ],
   "note": ""
  },
  {
   "property": "C29",
   "status": "proved",
   "theorems": [
    "C29_gas_fraction",
    "C29_simulation_gas_fraction",
    "C29_matter_budget_fitted_feedback",
    "C29_matter_budget_simulated_feedback"
   ],
   "note": ""
  },
  {
   "property": "C30",
   "status": "proved",
   "theorems": [
    "C30_constant",
    "C30_power_law",
    "C30_incomplete_rejected"
   ],
   "note": ""
  },
  {
   "property": "C31",
   "status": "proved",
   "theorems": [
    "C31_dewiggled_power",
    "C31_smooth_power_unchanged",
    "C31_ratio_to_smooth_power_bounded",
    "C31_spacing_check",
    "C31_uneven_spacing_rejected_refuted",
    "C31_damping"
   ],
   "note": "Finding: the even-spacing check never fires (np.isclose of a boolean); C31_uneven_spacing_rejected_refuted."
  },
  {
   "property": "C32",
   "status": "proved",
   "theorems": [
    "C32_construction",
    "C32_updates",
    "C32_update_exact",
    "C32_rejected_update_refuted",
    "C32_spectra_defined",
    "C32_alignment_options"
   ],
   "note": "Finding: hmf update() assigns before validating and does not roll back; C32_rejected_update_refuted shows the object left in the rejected configuration, where mm raises UnboundLocalError."
  },
  {
   "property": "C33",
   "status": "proved",
   "theorems": [
    "C33_linear_shape_checked",
    "C33_linear_shape_checked_dewiggled",
    "C33_nonlinear_shape_checked",
    "C33_spectra_use_the_checked_arrays",
    "C33_wrong_shape_always_rejected_refuted"
   ],
   "note": "Finding: a single-column linear spectrum is accepted when dewiggling, and response-mode mm never looks at the linear spectrum; C33_wrong_shape_always_rejected_refuted."
  },
  {
   "property": "C34",
   "status": "proved",
   "theorems": [
    "C34_reads_end",
    "C34_independent",
    "C34_no_feedback",
    "C34_cosmology_kept",
    "C34_omega_m_refuted",
    "C34_selector_refuted"
   ],
   "note": "Findings: omega_m is a functools.cached_property, stale after a cosmology update (C34_omega_m_refuted); hmcode_ingredients is not declared a switch, so K misses updates after its branch changed (C34_selector_refuted). The dependency table CacheTable.v is extracted from the source; the hmf caching rules are part of the trusted base."
  },
  {
   "property": "C35",
   "status": "proved",
   "theorems": [
    "C35_fresh_while_unchanged",
    "C35_pinned_after_first_use",
    "C35_update_ignored",
    "C35_new_length_raises",
    "C35_one_redshift_fraction_sticks",
    "C35_always_current_refuted"
   ],
   "note": "Finding: frac_1, power_1 and power_2 are functools.cached_property and never follow update(); C35_always_current_refuted."
  },
  {
   "property": "C36",
   "status": "proved",
   "theorems": [
    "C36_shared_dictionaries",
    "C36_attached",
    "C36_unchanged_refuted"
   ],
   "note": "Finding: the dictionary of the caller is mutated in place and a requested method is overridden; C36_unchanged_refuted."
  },
  {
   "property": "C37",
   "status": "proved",
   "theorems": [
    "C37_mixing",
    "C37_limits",
    "C37_one_population",
    "C37_fractions_are_complementary",
    "C37_fraction_at_nodes",
    "C37_identical_refuted",
    "C37_fraction_in_unit_interval_refuted"
   ],
   "note": "Findings: identical populations lose power in gg, ii, gi (C37_identical_refuted); the fraction is extrapolated out of [0,1] (C37_fraction_in_unit_interval_refuted)."
  },
  {
   "property": "C38",
   "status": "proved",
   "theorems": [
    "C38_sums_kept",
    "C38_sums_kept_single",
    "C38_own_grid",
    "C38_exact_when_bilinear",
    "C38_any_fill_refuted"
   ],
   "note": "C38_any_fill_refuted: a non-zero fill value breaks the sum outside the redshift range of the model."
  },
  {
   "property": "C39",
   "status": "proved",
   "theorems": [
    "C39_stores_what_was_asked",
    "C39_one_call",
    "C39_unknown_component_raises"
   ],
   "note": "The linear bias of gg cannot be requested: any other component name raises AttributeError."
  },
  {
   "property": "C40",
   "status": "proved",
   "theorems": [
    "C40_clamped",
    "C40_emulator",
    "C40_sigma8",
    "C40_sigma8_refuted"
   ],
   "note": "Finding: when the amplitude needed by sigma_8 is outside the box it is clamped silently and another sigma_8 is used; C40_sigma8_refuted."
  },
  {
   "property": "C41",
   "status": "proved",
   "theorems": [
    "C41_truncations"
   ],
   "note": ""
  },
  {
   "property": "C42",
   "status": "proved",
   "theorems": [
    "C42_indexing",
    "C42_redshifts",
    "C42_loop",
    "C42_lookup",
    "C42_nearest"
   ],
   "note": "The Dark Emulator and the quadratic interpolator are arguments. mean of an empty slice (no k in (100,200)) is 0 in the model, nan in numpy; the grid of the code has such k."
  },
  {
   "property": "C43",
   "status": "proved",
   "theorems": [
    "C43_multipoles",
    "C43_lookups_in_bounds",
    "C43_transform",
    "C43_limit_needed"
   ],
   "note": ""
  },
  {
   "property": "C44",
   "status": "proved",
   "theorems": [
    "C44_pass_or_reject",
    "C44_end_points",
    "C44_same_indices",
    "C44_ties_refuted"
   ],
   "note": "Finding: np.all in the two-dimensional branch drops the last column of every redshift when a single redshift is tied, and a constant quantity gets a different length than the masses; C44_ties_refuted."
  },
  {
   "property": "C45",
   "status": "proved",
   "theorems": [
    "C45_broken_power_law",
    "C45_averages",
    "C45_mean_is_integral"
   ],
   "note": ""
  },
  {
   "property": "C46",
   "status": "proved",
   "theorems": [
    "C46_central",
    "C46_satellite",
    "C46_sign"
   ],
   "note": ""
  },
  {
   "property": "C47",
   "status": "proved",
   "theorems": [
    "C47_shear_profile",
    "C47_truncation",
    "C47_mass_normalisation"
   ],
   "note": ""
  },
  {
   "property": "C48",
   "status": "proved",
   "theorems": [
    "C48_first_population",
    "C48_second_population",
    "C48_required",
    "C48_matching_refuted"
   ],
   "note": "The property as first stated (each option gates the parameters of its own galaxy type) is false: the two gates are swapped, `C48_matching_refuted`. The restated property is the exact content."
  },
  {
   "property": "C49",
   "status": "proved",
   "theorems": [
    "C49_value_of_first",
    "C49_second_has_no_effect"
   ],
   "note": "The property as first stated (the spectra depend on both populations) is false: the fraction of the first population is hard-coded to ones, so the second population has weight zero."
  },
  {
   "property": "C50",
   "status": "proved",
   "theorems": [
    "C50_schedule",
    "C50_every_call_is_a_step",
    "C50_zero_period"
   ],
   "note": "update_bnl = 0 raises ZeroDivisionError at every call (`C50_zero_period`)."
  },
  {
   "property": "C51",
   "status": "proved",
   "theorems": [
    "C51_suffix",
    "C51_distinct_bins",
    "C51_distinct_quantities",
    "C51_run_writes_each_place_once"
   ],
   "note": "Distinct section names are a real hypothesis: nothing in the code stops the HOD sections of the galaxy and alignment samples from being the same, in which case the second overwrites the first."
  },
  {
   "property": "C52",
   "status": "proved",
   "theorems": [
    "C52_single_bin_covers",
    "C52_limits_accepted",
    "C52_observables_file_refuted"
   ],
   "note": "With an observables file the set-up reads a missing key and raises KeyError (`C52_observables_file_refuted`), so galaxy spectra can only be run with explicit limits."
  },
  {
   "property": "C53",
   "status": "proved",
   "theorems": [
    "C53_positive",
    "C53_nodes",
    "C53_power_laws",
    "C53_within_range"
   ],
   "note": ""
  },
  {
   "property": "C54",
   "status": "proved",
   "theorems": [
    "C54_hod_collection",
    "C54_poisson_collection",
    "C54_aborts_before_output",
    "C54_default_poisson_refuted",
    "C54_alignment_only_refuted"
   ],
   "note": "The default poisson_type '' raises KeyError whenever galaxies or alignments are requested (`C54_default_poisson_refuted`); with alignments only, the number of bins is 0, so no per-bin parameter is checked and empty arrays are passed on (`C54_alignment_only_refuted`)."
  },
  {
   "property": "C55",
   "status": "proved",
   "theorems": [
    "C55_value",
    "C55_mode",
    "C55_set_up",
    "C55_own_separation_refuted"
   ],
   "note": "Finding: values are attached to separations one logarithmic step too small; `C55_own_separation_refuted`."
  },
  {
   "property": "C56",
   "status": "proved",
   "theorems": [
    "C56_sign",
    "C56_nodes",
    "C56_power_law",
    "C56_scaling",
    "C56_within"
   ],
   "note": ""
  },
  {
   "property": "C57",
   "status": "proved",
   "theorems": [
    "C57_initialised",
    "C57_never_fails",
    "C57_linear",
    "C57_kr",
    "C57_two_poles_refuted"
   ],
   "note": "loggamma is an argument. Finding: when both gamma arguments are non-positive integers two or more apart, fhti stores an array in one cell and raises (`C57_two_poles_refuted`). kropt = 3 (interactive) is left out."
  },
  {
   "property": "C58",
   "status": "proved",
   "theorems": [
    "C58_bins",
    "C58_values",
    "C58_same_cosmology",
    "C58_chain",
    "C58_rejected",
    "C58_own_ratio_refuted"
   ],
   "note": "Finding: the separations are shared and compound over bins; `C58_own_ratio_refuted`."
  },
  {
   "property": "C59",
   "status": "proved",
   "theorems": [
    "C59_round_trip",
    "C59_via",
    "C59_same_angle",
    "C59_degrees",
    "C59_output_units"
   ],
   "note": ""
  },
  {
   "property": "C60",
   "status": "proved",
   "theorems": [
    "C60_matter_one_halo",
    "C60_clustering_one_halo",
    "C60_galaxy_matter_one_halo",
    "C60_alignment_one_halo"
   ],
   "note": ""
  },
  {
   "property": "C61",
   "status": "proved",
   "theorems": [
    "C61_clustering_two_halo",
    "C61_galaxy_matter_two_halo",
    "C61_matter_two_halo"
   ],
   "note": ""
  },
  {
   "property": "C62",
   "status": "proved",
   "theorems": [
    "C62_default_gas_mass_leaves_all_gas"
   ],
   "note": ""
  },
  {
   "property": "C63",
   "status": "proved",
   "theorems": [
    "C63_general_formula",
    "C63_used",
    "C63_slope_minus_2",
    "C63_slope_0_refuted"
   ],
   "note": "Finding: the coefficients hard-coded for slope 0 are those of slope 1 (C63_slope_0_refuted). The gamma function is an argument with three assumed equations; an instance is constructed."
  },
  {
   "property": "C64",
   "status": "proved",
   "theorems": [
    "C64_redshift_bins",
    "C64_luminosity_bins",
    "C64_distribution"
   ],
   "note": "Zero to a negative exponent is inf in the code and the mean nan, so the empty-bin claim is for exponents that are not negative."
  },
  {
   "property": "C65",
   "status": "proved",
   "theorems": [
    "C65_hankel",
    "C65_fftlog",
    "C65_fftlog_extrapolation_refuted",
    "C65_grid"
   ],
   "note": "C65_fftlog_extrapolation_refuted: the linear extrapolation can turn the transform negative."
  },
  {
   "property": "C66",
   "status": "proved",
   "theorems": [
    "C66_smoothing",
    "C66_calibration",
    "C66_linear",
    "C66_envelopes",
    "C66_chunks"
   ],
   "note": ""
  },
  {
   "property": "C67",
   "status": "proved",
   "theorems": [
    "C67_minimum_halo",
    "C67_rvir",
    "C67_grids"
   ],
   "note": ""
  },
  {
   "property": "C68",
   "status": "proved",
   "theorems": [
    "C68_redshift_interpolation"
   ],
   "note": ""
  },
  {
   "property": "C69",
   "status": "proved",
   "theorems": [
    "C69_outputs",
    "C69_nothing_else",
    "C69_history_free"
   ],
   "note": ""
  },
  {
   "property": "C70",
   "status": "proved",
   "theorems": [
    "C70_modes",
    "C70_powers",
    "C70_kernel",
    "C70_inverse",
    "C70_orthogonal",
    "C70_fftl",
    "C70_fftl_round_trip_refuted"
   ],
   "note": "Finding: the documented round trip of fftl does not hold; `C70_fftl_round_trip_refuted`."
  },
  {
   "property": "C71",
   "status": "proved",
   "theorems": [
    "C71_value",
    "C71_separable",
    "C71_no_overlap",
    "C71_own_inputs",
    "C71_no_bins"
   ],
   "note": ""
  },
  {
   "property": "C72",
   "status": "proved",
   "theorems": [
    "C72_acceleration_equation",
    "C72_expansion_today",
    "C72_matter_fraction_is_a_fraction"
   ],
   "note": "astropy's densities and equation of state are the fields of `cosmo`; the CPL form is proved to satisfy the law assumed."
  },
  {
   "property": "C73",
   "status": "proved",
   "theorems": [
    "C73_growth_positive_and_increasing",
    "C73_growth_rate_between_zero_and_one",
    "C73_growth_is_suppressed",
    "C73_accumulated_growth"
   ],
   "note": "About exact solutions of the equation the code hands to solve_ivp, not about the integrator or the cubic interpolation of its output."
  },
  {
   "property": "C74",
   "status": "proved",
   "theorems": [
    "C74_eds_growth",
    "C74_eds_collapse",
    "C74_neutrino_fractions",
    "C74_reported_fnu"
   ],
   "note": "Finding: Dv_Mead and dc_Mead use Omega_nu0/(Omega_m0 + Omega_nu0) as the neutrino fraction, fnu reports Omega_nu0/Omega_m0; `C74_neutrino_fractions`."
  },
  {
   "property": "C75",
   "status": "proved",
   "theorems": [
    "C75_hmcode_overrides",
    "C75_other_ingredients",
    "C75_settings_of_every_redshift"
   ],
   "note": ""
  },
  {
   "property": "C76",
   "status": "proved",
   "theorems": [
    "C76_redshifts_do_not_influence_each_other",
    "C76_accessor_rows",
    "C76_when_it_fails"
   ],
   "note": "halomod's update semantics for parameter dictionaries (replace or merge) and model switches are arguments satisfying `setting_law`, `model_law`; both dictionary semantics are instances."
  },
  {
   "property": "C77",
   "status": "proved",
   "theorems": [
    "C77_no_feedback",
    "C77_feedback_decreases_with_redshift",
    "C77_feedback_decreases_with_temperature",
    "C77_feedback_below_gravity_only"
   ],
   "note": ""
  },
  {
   "property": "C78",
   "status": "proved",
   "theorems": [
    "C78_formation_not_after_observation",
    "C78_massive_haloes_form_later",
    "C78_when_it_fails"
   ],
   "note": "root_scalar is an argument satisfying `root_law`."
  },
  {
   "property": "C79",
   "status": "proved",
   "theorems": [
    "C79_no_neutrinos",
    "C79_cold_ratio_bounded",
    "C79_cold_ratio_increases_with_k",
    "C79_continuous_at_zero_mass"
   ],
   "note": ""
  },
  {
   "property": "C80",
   "status": "proved",
   "theorems": [
    "C80_variance",
    "C80_scales_with_amplitude",
    "C80_monotone_in_power"
   ],
   "note": ""
  },
  {
   "property": "C81",
   "status": "proved",
   "theorems": [
    "C81_observable_function_integrates_to_number_density",
    "C81_observable_function_ignores_decoration",
    "C81_spectra_function_integrates_to_number_density",
    "C81_central_function_is_per_dex",
    "C81_satellite_function_is_per_dex",
    "C81_spectra_function_splits",
    "C81_spectra_function_nonneg",
    "C81_axes_are_the_observable_settings",
    "C81_none_unless_requested_for_cacciato"
   ],
   "note": "Finding: hod.py documents obs_func as a function per dex; HOD.obs_func is per unit observable (its integral over the observable is the number density) and Spectra.obs_func, ln 10 times the observable times it, is the one per dex."
  },
  {
   "property": "C82",
   "status": "proved",
   "theorems": [
    "C82_slope_between_the_two_power_laws",
    "C82_mean_observable_increases",
    "C82_low_mass_slope_is_g1",
    "C82_high_mass_slope_is_g2",
    "C82_one_central_per_halo",
    "C82_mean_relation_is_the_median"
   ],
   "note": ""
  },
  {
   "property": "C83",
   "status": "proved",
   "theorems": [
    "C83_hankel_method_is_the_bessel_moment",
    "C83_fftlog_method_is_the_bessel_moment",
    "C83_methods_agree",
    "C83_fftlog_between_its_nodes",
    "C83_wavenumbers_inside_the_grid",
    "C83_grids_are_reciprocal",
    "C83_grid_step",
    "C83_bias_in_the_convergence_strip",
    "C83_bounded_by_the_shear_cap",
    "C83_flat_shear_factors",
    "C83_proportional_to_amplitude_below_the_cap"
   ],
   "note": "The two transform libraries are arguments; `hankel_law` and `fht_exact` say what integral they return (Coquelicot integral on radii up to X; for truncated profiles any X beyond the virial radius gives the same)."
  },
  {
   "property": "C84",
   "status": "proved",
   "theorems": [
    "C84_setup",
    "C84_grid",
    "C84_separations_increase",
    "C84_output_range",
    "C84_plain_transform_gives_projection",
    "C84_hankel_transform_value",
    "C84_projection_refuted",
    "C84_value_depends_on_separation_only",
    "C84_bins",
    "C84_total",
    "C84_own_inputs",
    "C84_no_bins"
   ],
   "note": "Finding: `C84_projection_refuted`: with hankel's current convention (factor r in the transform, which ia.py relies on) pk_to_real_ogata returns rp times the integral of k^2 P J instead of the integral of k P J."
  },
  {
   "property": "C85",
   "status": "proved",
   "theorems": [
    "C85_matter_power_ignores_galaxies",
    "C85_alignment_changes_only_alignment_spectra",
    "C85_independence_refuted"
   ],
   "note": "`C85_independence_refuted`: with fit ingredients and Cacciato galaxies the matter power changes with the galaxies."
  },
  {
   "property": "C86",
   "status": "proved",
   "theorems": [
    "C86_spectra_scale_as_volumes",
    "C86_matter_spectrum_scales_as_volume"
   ],
   "note": "The built-in wavenumbers (hmcode recipes, dewiggling, 2-halo truncation) are excluded by `scale_free`."
  },
  {
   "property": "C87",
   "status": "proved",
   "theorems": [
    "C87_galaxy_power_under_abundance",
    "C87_cross_power_under_abundance",
    "C87_alignment_power_under_abundance",
    "C87_galaxy_statistics_under_abundance"
   ],
   "note": ""
  },
  {
   "property": "C88",
   "status": "proved",
   "theorems": [
    "C88_spectra_do_not_depend_on_other_wavenumbers",
    "C88_matter_spectrum_does_not_depend_on_other_wavenumbers",
    "C88_profile_for_another_first_wavenumber",
    "C88_any_subgrid_refuted"
   ],
   "note": "Finding: the profiles are normalised by the first wavenumber of the grid, so the spectra depend on k_min; `C88_any_subgrid_refuted`."
  },
  {
   "property": "C89",
   "status": "proved",
   "theorems": [
    "C89_matter_spectrum_does_not_depend_on_other_redshifts",
    "C89_spectra_given_same_interpolated_mass_function",
    "C89_spectra_when_hod_redshifts_are_kept",
    "C89_galaxies_refuted"
   ],
   "note": "`C89_galaxies_refuted`: the mass function is interpolated from the output redshifts to the HOD redshifts, so galaxy densities depend on the output grid."
  },
  {
   "property": "C90",
   "status": "proved",
   "theorems": [
    "C90_each_bin_is_computed_alone",
    "C90_matter_spectrum_of_each_bin"
   ],
   "note": ""
  },
  {
   "property": "C91",
   "status": "proved",
   "theorems": [
    "C91_setup_succeeds_iff",
    "C91_requests_are_the_flags",
    "C91_bins_are_the_limits_given",
    "C91_request_settings_are_the_options",
    "C91_ingredient_settings_are_the_options",
    "C91_galaxy_settings_are_the_options"
   ],
   "note": "Types are those of cosmosis' block getters; a value numpy would reject later as a count is rejected in the model where it is read."
  },
  {
   "property": "C92",
   "status": "proved",
   "theorems": [
    "C92_documented_defaults_are_the_defaults",
    "C92_documented_none_is_the_default",
    "C92_none_default_refuted",
    "C92_all_documented_defaults_refuted"
   ],
   "note": "Findings: `C92_all_documented_defaults_refuted` (hod_section_name_ia, _1, _2 and nobs_* have no default in the code) and `C92_none_default_refuted`. module.yaml also names values the code does not know: poisson_type 'scalar' (code: 'constant') and hmcode_ingredients 'fit_feedback' (code: 'fit')."
  },
  {
   "property": "C93",
   "status": "proved",
   "theorems": [
    "C93_mass_grid",
    "C93_redshift_grid",
    "C93_wavenumber_grid"
   ],
   "note": ""
  },
  {
   "property": "C94",
   "status": "proved",
   "theorems": [
    "C94_only_needed_options_matter",
    "C94_unknown_options_are_ignored",
    "C94_example_settings_take_effect_refuted",
    "C94_output_suffix_takes_effect_refuted"
   ],
   "note": "Findings: `C94_example_settings_take_effect_refuted`; `C94_output_suffix_takes_effect_refuted` (module.yaml documents output_suffix as the suffix of the HOD outputs)."
  },
  {
   "property": "C95",
   "status": "proved",
   "theorems": [
    "C95_parameters_are_options_and_block_values",
    "C95_galaxy_and_alignment_parameters",
    "C95_grids_and_power_spectra",
    "C95_unreadable_blocks_are_rejected",
    "C95_bnl_uses_the_same_cosmology",
    "C95_keywords_are_parameters",
    "C95_every_parameter_can_be_set_refuted"
   ],
   "note": "Finding: `C95_every_parameter_can_be_set_refuted` (Neff is never set, so blocks cannot change it). hod_settings after an alignment request is the alignment sample (C69)."
  },
  {
   "property": "C96",
   "status": "proved",
   "theorems": [
    "C96_calls_have_no_memory",
    "C96_bnl_memory_is_the_table"
   ],
   "note": "Spectra is any function of its parameters here; C34 says when a kept object is one."
  },
  {
   "property": "C97",
   "status": "proved",
   "theorems": [
    "C97_fft_setup",
    "C97_quad_setup",
    "C97_type",
    "C97_defaults"
   ],
   "note": "Suffixes are taken as the strings the section names are built from. Empty section names fall back to the defaults too."
  },
  {
   "property": "C98",
   "status": "proved",
   "theorems": [
    "C98_fft",
    "C98_quad",
    "C98_fft_succeeds",
    "C98_quad_succeeds",
    "C98_failure_is_local",
    "C98_no_bins"
   ],
   "note": "A section whose shapes do not fit counts as missing. numpy and scipy parts are those of C55-C57 and C84."
  },
  {
   "property": "C99",
   "status": "proved",
   "theorems": [
    "C99_sections",
    "C99_matched",
    "C99_projected",
    "C99_unmatched"
   ],
   "note": "Assumes that the three user-named sections of the pipeline module are not names of spectra (free_section); values the log only names may leave anything in their own section."
  },
  {
   "property": "C100",
   "status": "proved",
   "theorems": [
    "C100_after_fft",
    "C100_needs_cosmology",
    "C100_quadrature_refuted"
   ],
   "note": "Finding (C100_quadrature_refuted): pk_to_real_ogata.py writes save_name = '' so correct_cosmo_real.py always raises on its output. rp is rescaled once per bin (the finding of C58)."
  },
  {
   "property": "C101",
   "status": "proved",
   "theorems": [
    "C101_aligned",
    "C101_cross",
    "C101_bad",
    "C101_scales",
    "C101_scale",
    "C101_indices",
    "C101_choose",
    "C101_total",
    "C101_indices_total",
    "C101_scale_refuted"
   ],
   "note": "Finding `C101_scale_refuted`: mask_scale tests `name in spectra_to_cut` with a string, a substring test. Closed limits for a bin pair, open ones for a statistic."
  },
  {
   "property": "C102",
   "status": "proved",
   "theorems": [
    "C102_blocks",
    "C102_total",
    "C102_file"
   ],
   "note": "The FITS header itself is not modelled: names, lengths and matrix are arguments."
  },
  {
   "property": "C103",
   "status": "proved",
   "theorems": [
    "C103_options",
    "C103_ignored",
    "C103_points",
    "C103_no_stats",
    "C103_false_refuted",
    "C103_four_words_refuted",
    "C103_psi_refuted"
   ],
   "note": "Findings `C103_false_refuted`, `C103_four_words_refuted`, `C103_psi_refuted`. Index cuts count entries after the cross-bin and pair cuts; C101 covers them one by one."
  },
  {
   "property": "C104",
   "status": "proved",
   "theorems": [
    "C104_aligned",
    "C104_unused",
    "C104_order_refuted",
    "C104_case_refuted"
   ],
   "note": "Findings `C104_order_refuted`, `C104_case_refuted` and the failure of unused index cuts. The order of the cuts relative to the choice does not matter for alignment, contrary to the comment in scale_cuts.py:97-100."
  },
  {
   "property": "C105",
   "status": "proved",
   "theorems": [
    "C105_lensing",
    "C105_pairs",
    "C105_order",
    "C105_no_bins",
    "C105_band"
   ],
   "note": ""
  },
  {
   "property": "C106",
   "status": "proved",
   "theorems": [
    "C106_formula",
    "C106_best",
    "C106_covariance",
    "C106_mismatch",
    "C106_broadcast_refuted"
   ],
   "note": "np.linalg.inv is an argument; `inverse_of` says it returned an inverse. Finding `C106_broadcast_refuted`."
  },
  {
   "property": "C107",
   "status": "proved",
   "theorems": [
    "C107_replace",
    "C107_bins_refuted",
    "C107_files_refuted"
   ],
   "note": "Findings `C107_bins_refuted`, `C107_files_refuted` (wrapper_twopoint.py:259 uses the index of the measurement as the index of the bin)."
  },
  {
   "property": "C108",
   "status": "proved",
   "theorems": [
    "C108_grids",
    "C108_rejects"
   ],
   "note": "Suffixes are taken as the strings the names are built from; n_obs as integers."
  },
  {
   "property": "C109",
   "status": "proved",
   "theorems": [
    "C109_flat",
    "C109_redshift",
    "C109_average",
    "C109_says",
    "C109_frame",
    "C109_runs",
    "C109_runs_tables",
    "C109_once",
    "C109_single_redshift_refuted"
   ],
   "note": "Finding `C109_single_redshift_refuted`: scipy's simpson of one sample is 0. put_double_array_1d refuses a name that exists."
  },
  {
   "property": "C110",
   "status": "proved",
   "theorems": [
    "C110_file",
    "C110_grid",
    "C110_bounds",
    "C110_conserved",
    "C110_redshift_refuted",
    "C110_lowest_edge_refuted"
   ],
   "note": "Findings `C110_redshift_refuted` (the evolution with redshift is ignored) and `C110_lowest_edge_refuted`. An empty bin is 0/0 (an argument in the model)."
  },
  {
   "property": "C111",
   "status": "proved",
   "theorems": [
    "C111_ratio",
    "C111_same",
    "C111_limits"
   ],
   "note": "astropy distances and h are arguments; the volume of the data is assumed not to be 0."
  },
  {
   "property": "C112",
   "status": "proved",
   "theorems": [
    "C112_tables",
    "C112_flat",
    "C112_default_refuted"
   ],
   "note": "Finding `C112_default_refuted`: the default suffix '_1' reads obs_val__1."
  },
  {
   "property": "C113",
   "status": "proved",
   "theorems": [
    "C113_likelihood",
    "C113_likelihood_bins",
    "C113_maximum",
    "C113_small_covariance",
    "C113_size_refuted",
    "C113_failure"
   ],
   "note": "np.linalg.inv is an argument; `inverse_of` says it returned an inverse. Finding `C113_size_refuted`: a covariance for more points than the data is accepted in silence. likenorm and the plots are not modelled."
  },
  {
   "property": "C114",
   "status": "proved",
   "theorems": [
    "C114_order",
    "C114_settings",
    "C114_count",
    "C114_runs",
    "C114_runs_bins",
    "C114_ten_files_refuted",
    "C114_third_column_refuted",
    "C114_pseudo_inverse_refuted"
   ],
   "note": "Findings `C114_ten_files_refuted` (lexicographic order of file names), `C114_third_column_refuted` and `C114_pseudo_inverse_refuted` (undefined names at mini_2pt_like.py). glob, np.genfromtxt and np.linalg.inv are arguments."
  },
  {
   "property": "C115",
   "status": "proved",
   "theorems": [
    "C115_unique",
    "C115_log_linear",
    "C115_nodes",
    "C115_bounds",
    "C115_not_covered",
    "C115_units"
   ],
   "note": "Theory and data separations are assumed positive and increasing (`sane`)."
  },
  {
   "property": "C116",
   "status": "proved",
   "theorems": [
    "C116_edges",
    "C116_constant_refuted",
    "C116_units_refuted",
    "C116_single_node_refuted"
   ],
   "note": "Findings `C116_constant_refuted` (an integral where a mean is wanted), `C116_single_node_refuted`, `C116_units_refuted`."
  },
  {
   "property": "C117",
   "status": "proved",
   "theorems": [
    "C117_product",
    "C117_triangular",
    "C117_chi_square",
    "C117_covariance",
    "C117_options",
    "C117_options_needed",
    "C117_size",
    "C117_no_partial_write_refuted"
   ],
   "note": "np.linalg.cholesky is an argument; `root_of` says it returned the root. Finding `C117_no_partial_write_refuted`."
  },
  {
   "property": "C118",
   "status": "proved",
   "theorems": [
    "C118_projection",
    "C118_prediction",
    "C118_other_name_refuted"
   ],
   "note": "Finding `C118_other_name_refuted`: the projection option output_section_name with any name but wp or ds cannot feed the likelihood."
  },
  {
   "property": "C119",
   "status": "proved",
   "theorems": [
    "C119_extrapolated",
    "C119_matter",
    "C119_determined",
    "C119_nodes"
   ],
   "note": "The sign flip of negative spectra has no effect: the interpolation is linear in the spectrum, not in its logarithm."
  },
  {
   "property": "C120",
   "status": "proved",
   "theorems": [
    "C120_combined",
    "C120_fraction",
    "C120_same_population_refuted",
    "C120_positive_refuted"
   ],
   "note": "Findings `C120_same_population_refuted` (splitting one population in two changes its spectrum) and `C120_positive_refuted` (the fraction is extrapolated beyond the file without a bound)."
  },
  {
   "property": "C121",
   "status": "proved",
   "theorems": [
    "C121_runs",
    "C121_needs",
    "C121_frame",
    "C121_bins_differ",
    "C121_mead_optional",
    "C121_in_place",
    "C121_setup"
   ],
   "note": "Finding: with the default empty input_power_suffix_extrap the output name is the input name, so the result depends on put_grid replacing an existing table (quantified: `over`). The bare except around the mead resampling hides every failure there."
  },
  {
   "property": "C122",
   "status": "proved",
   "theorems": [
    "C122_agrees",
    "C122_same_refuted"
   ],
   "note": "Finding `C122_same_refuted`: between the redshifts of the tables the two implementations give 1/2 and 1/4."
  },
  {
   "property": "C123",
   "status": "proved",
   "theorems": [
    "C123_central",
    "C123_satellite",
    "C123_determined",
    "C123_bounds",
    "C123_empty",
    "C123_normalised_refuted"
   ],
   "note": "Finding `C123_normalised_refuted`: with one galaxy per redshift and exponent zero the amplitude comes back as two thirds of itself, because a histogram with narrow bins is integrated by Simpson's rule."
  },
  {
   "property": "C124",
   "status": "proved",
   "theorems": [
    "C124_amplitudes",
    "C124_runs",
    "C124_setup",
    "C124_frame",
    "C124_untouched",
    "C124_failing_writes_refuted",
    "C124_once"
   ],
   "note": "Findings: centrals and satellites share one pivot; a missing pivot is a ValueError for centrals and a missing name for satellites; `C124_failing_writes_refuted`: a failing run can leave the centrals written."
  },
  {
   "property": "C125",
   "status": "proved",
   "theorems": [
    "C125_occupations",
    "C125_densities",
    "C125_bias",
    "C125_stellar_fraction",
    "C125_interface",
    "C125_average_mass",
    "C125_observable",
    "C125_observable_same",
    "C125_average_mass_refuted"
   ],
   "note": "Finding `C125_average_mass_refuted`: average_halo_mass of the module is the mean mass of the centrals' halos, avg_halo_mass_cen of the class the integral without the division by the density (4/3 against 1 for two halos)."
  },
  {
   "property": "C126",
   "status": "proved",
   "theorems": [
    "C126_setup",
    "C126_limits",
    "C126_runs",
    "C126_valid",
    "C126_negative",
    "C126_parameter",
    "C126_unknown",
    "C126_frame",
    "C126_again",
    "C126_counts",
    "C126_extended",
    "C126_relation_refuted"
   ],
   "note": "Findings: `C126_relation_refuted`: mean_obs_halo_mass_relation has one value whatever the number of masses (.T[0] of an array of shape (1, mass)); `C126_limits`: the branch with mass limits uses pickle, which is not imported; a file with one row is an IndexError."
  },
  {
   "property": "C127",
   "status": "proved",
   "theorems": [
    "C127_tables",
    "C127_class",
    "C127_upsampled",
    "C127_ties_refuted",
    "C127_amplitudes"
   ],
   "note": "Finding `C127_ties_refuted`: with equal virial radii the class samples fewer radii than masses (see C44); the module compares masses only. The class fixes kmin, kmax and nk; the module reads them, and the statement is about the module's wavenumbers."
  },
  {
   "property": "C128",
   "status": "proved",
   "theorems": [
    "C128_setup",
    "C128_runs",
    "C128_slope",
    "C128_slope_refuted",
    "C128_coarse",
    "C128_negative_refuted",
    "C128_frame",
    "C128_failing",
    "C128_once",
    "C128_samples"
   ],
   "note": "Findings: `C128_slope_refuted`: a slope other than 0 and -2 is a TypeError (calculate_f_ell looks the slope up in a table of two at theta = pi/2 and indexes the None it gets), so the documented free slope cannot be used; `C128_negative_refuted`: nmass = -2 of four masses gives the fourth, second and fourth."
  },
  {
   "property": "C129",
   "status": "proved",
   "theorems": [
    "C129_matter",
    "C129_galaxy",
    "C129_galaxy_matter",
    "C129_galaxy_intrinsic",
    "C129_matter_intrinsic",
    "C129_intrinsic",
    "C129_intrinsic_refuted",
    "C129_neutrinos"
   ],
   "note": "Finding `C129_intrinsic_refuted`: the two-halo table of the intrinsic spectrum is not that of Spectra. Outside the agreement: beta_nl at the least mass must not depend on the order of the masses (the modules swap the two indices), bnl or Mead together with Fortuna has no mode of Spectra, and the block's linear power is interpolated in logarithms here."
  },
  {
   "property": "C130",
   "status": "proved",
   "theorems": [
    "C130_options",
    "C130_frame",
    "C130_needs_matter",
    "C130_response_needs_matter",
    "C130_poisson",
    "C130_beta",
    "C130_matter_kept",
    "C130_own_power"
   ],
   "note": "Findings: galaxy spectra alone fail with an unbound profile; the default of the Poisson factor never applies, since the value is read before it; with p_mm and Fortuna the effective power uses the halo-model spectrum written moments before, not the non-linear power given."
  },
  {
   "property": "C131",
   "status": "proved",
   "theorems": [
    "C131_chain",
    "C131_schedule",
    "C131_origin",
    "C131_every",
    "C131_failed",
    "C131_refused",
    "C131_off",
    "C131_stale_refuted",
    "C131_delete"
   ],
   "note": "Finding `C131_stale_refuted`: with update_bnl = 2 the second call of a chain writes the table of the first, although its own block gives values of the other sign."
  },
  {
   "property": "C132",
   "status": "proved",
   "theorems": [
    "C132_same",
    "C132_shot",
    "C132_handed",
    "C132_class_layout",
    "C132_class_layout_refuted",
    "C132_cosmology",
    "C132_cosmology_refuted",
    "C132_masses"
   ],
   "note": "Findings: `C132_class_layout_refuted`: with as many wavenumbers as masses the array of bnl_interface_class.py is read with the axes confused; `C132_cosmology_refuted`: in a flat universe inside the emulator's range the two modules give the emulator different dark energy."
  },
  {
   "property": "C133",
   "status": "proved",
   "theorems": [
    "C133_history",
    "C133_one_redshift",
    "C133_when_it_fails",
    "C133_setup",
    "C133_profiles"
   ],
   "note": "Findings: a misspelt correction name such as 'Mead2020' is silently none; with corrections the overdensity depends on redshift, yet one virial radius, that of the first redshift, is written for all."
  },
  {
   "property": "C134",
   "status": "proved",
   "theorems": [
    "C134_growth",
    "C134_plain",
    "C134_population",
    "C134_corrected",
    "C134_concentrations_at_least"
   ],
   "note": "Findings: with corrections the two codes treat satellites differently (eta_sat and norm_sat of the block against the fitted bloating and K), norm_cen and eta_cen are read and ignored, and nfw_scale_radius is not the virial radius over the written concentration."
  },
  {
   "property": "C135",
   "status": "proved",
   "theorems": [
    "C135_setup",
    "C135_never",
    "C135_refused",
    "C135_arguments"
   ],
   "note": "Finding: the module fails on every block (C135_never), because it names the halo bias halobias. That hmf's Component refuses unknown names is the hypothesis `strict` of the theorems, not part of the model; everything after the class is made is an argument."
  }
 ]
}