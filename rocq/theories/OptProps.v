(** Properties of the option reading of the pipeline module (C91-C94). *)
From Coq Require Import ZArith.
From Verif Require Import Base Spec Interp HodModel HodSpec PkModel AddModel PipeModel OptModel OptSpec BaseFacts
  OptFacts OptFacts2 OptFacts3 OptFacts4 OptFacts5.
Open Scope R_scope.

(** C91 *)
Theorem C91_setup_succeeds_iff : forall missing wrong o darkemu,
  (exists m, setup missing wrong o darkemu = Ok m) <-> usable missing darkemu o.
Proof. exact setup_iff. Qed.
Print Assumptions C91_setup_succeeds_iff.

Theorem C91_requests_are_the_flags : forall missing wrong o darkemu m, setup missing wrong o darkemu = Ok m ->
  let c := config_of m in
  (g_mm c = true <-> flag o "p_mm") /\ (g_gg c = true <-> flag o "p_gg") /\ (g_gm c = true <-> flag o "p_gm") /\
  (g_gI c = true <-> flag o "p_gI") /\ (g_mI c = true <-> flag o "p_mI") /\ (g_II c = true <-> flag o "p_II") /\
  (g_response c = true <-> flag o "response") /\ (g_split c = true <-> flag o "split_ia") /\
  (galaxy c = true <-> wants_galaxies o) /\ (alignment c = true <-> wants_alignment o).
Proof. exact setup_flags. Qed.
Print Assumptions C91_requests_are_the_flags.

Theorem C91_bins_are_the_limits_given : forall missing wrong o darkemu m l, setup missing wrong o darkemu = Ok m ->
  wants_galaxies o -> o "log10_obs_min_hod"%string = Some (OArr l) -> g_nbins (config_of m) = List.length l.
Proof. exact setup_bins. Qed.
Print Assumptions C91_bins_are_the_limits_given.

Example C91_case : exists m, setup "ValueError" "BlockWrongValueType" example_ini true = Ok m /\
  g_nbins (config_of m) = 2%nat /\ g_mm (config_of m) = true /\ g_split (config_of m) = true.
Proof. destruct (example_ok "ValueError" "BlockWrongValueType" true eq_refl) as (m & E & _ & _ & H). exists m. split; [exact E|exact H]. Qed.

Theorem C91_request_settings_are_the_options : forall missing wrong o darkemu m, setup missing wrong o darkemu = Ok m ->
  let c := config_of m in
  g_mode c = mode_name (optional (o "nonlinear_mode"%string) None) /\ g_poisson c = text (o "poisson_type"%string) "" /\
  q_k1 (m_request m) = optional (o "one_halo_ktrunc"%string) (Some (1/10)) /\
  q_k2 (m_request m) = optional (o "two_halo_ktrunc"%string) (Some 2) /\
  q_k1_ia (m_request m) = optional (o "one_halo_ktrunc_ia"%string) (Some 4) /\
  q_k2_ia (m_request m) = optional (o "two_halo_ktrunc_ia"%string) (Some 6) /\
  q_ingr (m_request m) = optional (o "hmcode_ingredients"%string) None /\
  (q_dewiggle (m_request m) = true <-> flag o "dewiggle") /\ (q_pointmass (m_request m) = true <-> flag o "point_mass").
Proof. exact config_request. Qed.
Print Assumptions C91_request_settings_are_the_options.

Theorem C91_ingredient_settings_are_the_options : forall missing wrong o darkemu m, setup missing wrong o darkemu = Ok m ->
  let h := m_hmf m in
  h_profile_cen h = text (o "profile_cen"%string) "NFW" /\ h_profile_sat h = text (o "profile_sat"%string) "NFW" /\
  h_profile_value h = text (o "profile_value_name"%string) "profile_parameters" /\
  h_hmf h = text (o "hmf_model"%string) "Tinker10" /\ h_mdef h = text (o "mdef_model"%string) "SOMean" /\
  h_overdensity h = num (o "overdensity"%string) 200 /\ h_cm_cen h = text (o "cm_model_cen"%string) "Duffy08" /\
  h_cm_sat h = text (o "cm_model_sat"%string) "Duffy08" /\ h_delta_c h = num (o "delta_c"%string) (1686/1000) /\
  h_bias h = text (o "bias_model"%string) "Tinker10".
Proof. exact config_ingredients. Qed.
Print Assumptions C91_ingredient_settings_are_the_options.

Theorem C91_galaxy_settings_are_the_options : forall missing wrong o darkemu m, setup missing wrong o darkemu = Ok m ->
  let c := config_of m in
  g_hod_model c = text (o "hod_model"%string) "Cacciato" /\ g_hod_section c = text (o "hod_section_name"%string) "hod" /\
  g_hod_values c = lower (text (o "values_name"%string) "hod_parameters") /\
  (g_save_obs c = true <-> flag o "save_observable") /\
  (flag o "save_observable" ->
     g_obs_section c = lower (text (o "observable_section_name"%string) "stellar_mass_function") /\ sample_is o "smf" (g_obs c)) /\
  (wants_galaxies o -> sample_is o "hod" (g_settings c)) /\
  (wants_alignment o ->
     g_central c = text (o "central_IA_depends_on"%string) "halo_mass" /\
     g_satellite c = text (o "satellite_IA_depends_on"%string) "halo_mass" /\
     (flag o "split_ia" ->
        o "hod_section_name_ia_1"%string = Some (OStr (g_hod_section_ia c)) /\
        g_pop1 c = population (text (o "output_suffix_ia_1"%string) "") /\
        g_pop2 c = population (text (o "output_suffix_ia_2"%string) "") /\
        sample_is o "ia_1" (g_ia_1 c) /\ sample_is o "ia_2" (g_ia_2 c)) /\
     (~ flag o "split_ia" ->
        o "hod_section_name_ia"%string = Some (OStr (g_hod_section_ia c)) /\
        g_pop1 c = population (text (o "output_suffix_ia"%string) "") /\ sample_is o "ia" (g_ia_1 c))) /\
  (o "nonlinear_mode"%string = Some (OStr "bnl") ->
     exists z, o "update_bnl"%string = Some (OInt z) /\ g_update_bnl c = Z.abs_nat z).
Proof. exact config_hod. Qed.
Print Assumptions C91_galaxy_settings_are_the_options.

Example C91_samples_case : exists m, setup "ValueError" "x" example_ini true = Ok m /\
  dget (g_settings (config_of m)) "nobs" = Some (SNum (count (example_ini "nobs_hod"%string))) /\
  g_hod_values (config_of m) = "hod_parameters"%string /\
  g_pop1 (config_of m) = "_ia_red"%string /\ g_pop2 (config_of m) = "_ia_blue"%string.
Proof. exact example_samples. Qed.

(** C92 *)
Theorem C92_documented_defaults_are_the_defaults : forall missing wrong o o' darkemu, written_out o o' ->
  setup missing wrong o darkemu = setup missing wrong o' darkemu.
Proof. exact documented_all_accepted. Qed.
Print Assumptions C92_documented_defaults_are_the_defaults.

Theorem C92_documented_none_is_the_default : forall wrong o o' darkemu, written_out_none o o' ->
  setup "ValueError" wrong o darkemu = setup "ValueError" wrong o' darkemu.
Proof. exact documented_none_accepted. Qed.
Print Assumptions C92_documented_none_is_the_default.

Theorem C92_none_default_refuted : forall missing wrong darkemu, missing <> "ValueError"%string ->
  forall o, o "nonlinear_mode"%string = None -> ~ exists m, setup missing wrong o darkemu = Ok m.
Proof. exact none_default_refuted. Qed.
Print Assumptions C92_none_default_refuted.

Theorem C92_all_documented_defaults_refuted : forall missing wrong darkemu n v, dget documented_wrongly n = Some v ->
  exists o m, o n = None /\ setup missing wrong (oset o n v) darkemu = Ok m /\ setup missing wrong o darkemu = Err missing.
Proof. exact wrong_defaults. Qed.
Print Assumptions C92_all_documented_defaults_refuted.

Example C92_case : setup "ValueError" "BlockWrongValueType" example_ini true =
    setup "ValueError" "BlockWrongValueType" (oset (oset example_ini "output_suffix" (OStr "")) "nonlinear_mode" (OStr "None")) true /\
  written_out_none example_ini (oset (oset example_ini "output_suffix" (OStr "")) "nonlinear_mode" (OStr "None")) /\
  example_ini "output_suffix"%string = None.
Proof. exact ex_C92. Qed.

(** C93 *)
Theorem C93_mass_grid : forall missing wrong o h, setup_hmf_config missing wrong o = Ok h ->
  let mn := num (o "log_mass_min"%string) 9 in let mx := num (o "log_mass_max"%string) 16 in
  let n := int (o "nmass"%string) 200 in (0 < n)%Z -> mn < mx ->
  mass_points h = Z.to_nat n /\ mass_grid h 0 = pow10 mn /\
  exists r, 1 < r /\ log_uniform (Z.to_nat n) r (mass_grid h) /\ r * mass_grid h (Z.to_nat n - 1) = pow10 mx /\
    (10 * (mx - mn) <= 3 * IZR n -> r <= 2).
Proof. exact mass_ok. Qed.
Print Assumptions C93_mass_grid.

Theorem C93_redshift_grid : forall missing wrong o h, setup_hmf_config missing wrong o = Ok h ->
  (2 <= int (o "nz_hmf"%string) 15)%Z -> num (o "zmin_hmf"%string) 0 < num (o "zmax_hmf"%string) 3 ->
  h_nz h = Z.to_nat (int (o "nz_hmf"%string) 15) /\ increasing (h_nz h) (h_zvec h) /\
  h_zvec h 0%nat = num (o "zmin_hmf"%string) 0 /\ h_zvec h (h_nz h - 1)%nat = num (o "zmax_hmf"%string) 3.
Proof. exact redshift_ok. Qed.
Print Assumptions C93_redshift_grid.

Theorem C93_wavenumber_grid : forall missing wrong o h, setup_hmf_config missing wrong o = Ok h ->
  forall nin k_in, (2 <= int (o "nk"%string) 100)%Z -> (2 <= nin)%nat -> 0 < k_in 0%nat -> k_in 0%nat < k_in (nin - 1)%nat ->
  let nk := Z.to_nat (int (o "nk"%string) 100) in
  k_points h = Ok nk /\ increasing nk (k_grid h nin k_in) /\ k_grid h nin k_in 0%nat = k_in 0%nat /\
  k_grid h nin k_in (nk - 1)%nat = k_in (nin - 1)%nat /\ exists r, 1 < r /\ log_uniform nk r (k_grid h nin k_in).
Proof. exact wavenumber_ok. Qed.
Print Assumptions C93_wavenumber_grid.

Example C93_case : exists m, setup "ValueError" "x" example_ini true = Ok m /\
  mass_points (m_hmf m) = 200%nat /\ mass_grid (m_hmf m) 0 = pow10 10.
Proof. destruct (example_ok "ValueError" "x" true eq_refl) as (m & E & _). exists m. split; [exact E|exact (example_mass true m E)]. Qed.

(** C94 *)
Theorem C94_only_needed_options_matter : forall missing wrong o o', (forall n, In n (names_needed o) -> o n = o' n) ->
  forall darkemu, setup missing wrong o darkemu = setup missing wrong o' darkemu.
Proof. exact need_setup. Qed.
Print Assumptions C94_only_needed_options_matter.

Theorem C94_unknown_options_are_ignored : forall missing wrong o darkemu n v, ~ In n names_read ->
  setup missing wrong (oset o n v) darkemu = setup missing wrong o darkemu.
Proof. exact ignored_set. Qed.
Print Assumptions C94_unknown_options_are_ignored.

Theorem C94_example_settings_take_effect_refuted :
  Forall (fun n => example_ini n <> None /\ ~ In n names_read) ["bnl"; "mead2020_correction"; "cm_model"; "profile"]%string /\
  forall missing wrong darkemu, missing = "ValueError"%string -> exists m, setup missing wrong example_ini darkemu = Ok m /\
    g_mode (config_of m) = None /\ q_ingr (m_request m) = None.
Proof. exact example_ignored. Qed.
Print Assumptions C94_example_settings_take_effect_refuted.

Example C94_case : ~ In "nz_ia"%string (names_needed example_ini) /\ In "nz_ia_1"%string (names_needed example_ini).
Proof. exact needed_witness. Qed.

Theorem C94_output_suffix_takes_effect_refuted : forall missing wrong o darkemu n s, In n unused ->
  forall m, setup missing wrong o darkemu = Ok m -> exists m', setup missing wrong (oset o n (OStr s)) darkemu = Ok m' /\
    config_of m' = config_of m /\ m_request m' = m_request m /\ m_hmf m' = m_hmf m.
Proof. exact unused_setup. Qed.
Print Assumptions C94_output_suffix_takes_effect_refuted.

Example C94_suffix_case : exists m m', setup "ValueError" "x" example_ini true = Ok m /\
  setup "ValueError" "x" (oset example_ini "output_suffix" (OStr "Red")) true = Ok m' /\
  d_pop (m_hod m) = ""%string /\ d_pop (m_hod m') = "_red"%string /\ config_of m' = config_of m.
Proof. exact example_unused. Qed.
