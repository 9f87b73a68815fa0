(** Properties of the keyword arguments of the pipeline module (C95, C96). *)
From Coq Require Import ZArith Lra.
From Verif Require Import Base Spec Interp HodModel PkModel AddModel AddSpec PipeModel PipeSpec PipeFacts
  OptModel OptSpec KwModel KwSpec KwFacts KwFacts2 KwFacts3 KwFacts4 KwFacts5 KwExample.
Open Scope string_scope.

(** C95 *)
Theorem C95_parameters_are_options_and_block_values : forall table missing wrong (S : spectra table) o darkemu m,
  setup missing wrong o darkemu = Ok m -> forall b s,
  let X := module_ext table missing wrong S m in let c := config_of m in
  snd (execute X c b s) = Ok tt -> let w := p_power X (fst (fst (execute X c b s))) in
  Forall (fun p => w (fst p) = num_kv table (num (o (fst (snd p))) (snd (snd p)))) option_numbers /\
  Forall (fun p => w (fst p) = str_kv table (text (o (fst (snd p))) (snd (snd p)))) option_texts /\
  Forall (fun p => w (fst p) = KVal table (optional (o (fst (snd p))) (snd (snd p)))) option_optional /\
  Forall (fun p => exists v, b (fst (snd p)) (snd (snd p)) = Some v /\ w (fst p) = KVal table (Some v)) block_values /\
  Forall (fun p => w (fst p) = num_kv table (number b (fst (fst (snd p))) (snd (fst (snd p))) (snd (snd p)))) (block_numbers (profile_section o)) /\
  w "mb" = num_kv table (pow10 (number b "halo_model_parameters" "m_b" (1387/100))) /\
  w "dlog10m" = num_kv table ((num (o "log_mass_max") 16 - num (o "log_mass_min") 9) / IZR (int (o "nmass") 200)) /\
  (exists d, w "dewiggle" = KBool table d /\ bool_is d o "dewiggle") /\
  w "lnk_min" = num_kv table (ln (1/100000000)) /\ w "lnk_max" = num_kv table (ln 100000000) /\ w "dlnk" = num_kv table (1/20) /\
  w "transfer_model" = str_kv table "FromArray" /\ w "growth_model" = str_kv table "FromArray" /\
  (exists k t, b "matter_power_transfer_func" "k_h" = Some k /\ b "matter_power_transfer_func" "t_k" = Some t /\ w "transfer_params" = KPair table k t) /\
  (exists z d, b "growth_parameters" "z" = Some z /\ b "growth_parameters" "d_z" = Some d /\ w "growth_params" = KPair table z d).
Proof. exact values. Qed.
Print Assumptions C95_parameters_are_options_and_block_values.

Theorem C95_galaxy_and_alignment_parameters : forall table missing wrong (S : spectra table) o darkemu m,
  setup missing wrong o darkemu = Ok m -> forall b s,
  let X := module_ext table missing wrong S m in let c := config_of m in
  snd (execute X c b s) = Ok tt -> let w := p_power X (fst (fst (execute X c b s))) in
  (wants_galaxies o \/ wants_alignment o ->
     w "poisson_model" = str_kv table (text (o "poisson_type") "") /\ w "hod_model" = str_kv table (text (o "hod_model") "Cacciato") /\
     (exists v, w "pointmass" = KBool table v /\ bool_is v o "point_mass") /\
     (exists v, w "compute_observable" = KBool table v /\ bool_is v o "save_observable") /\
     (flag o "save_observable" -> exists d, w "obs_settings" = KSettings table d /\ sample_is o "smf" d) /\
     (exists d, w "poisson_params" = KPoisson table d /\ poisson_params missing b (text (o "poisson_type") "") = Ok d) /\
     (exists d, w "hod_params" = KHod table d /\ hod_params b (g_hod_values c) (g_hod_model c) (g_nbins c) = Ok d)) /\
  (wants_galaxies o -> ~ wants_alignment o -> exists d, w "hod_settings" = KSettings table d /\ sample_is o "hod" d) /\
  (wants_alignment o ->
     w "one_halo_ktrunc_ia" = KVal table (optional (o "one_halo_ktrunc_ia") (Some 4%R)) /\
     w "two_halo_ktrunc_ia" = KVal table (optional (o "two_halo_ktrunc_ia") (Some 6%R)) /\
     w "t_eff" = num_kv table (number b "pk_parameters" "linear_fraction_fortuna" 0) /\
     exists d, w "align_params" = KAlign table d /\ align_params b (g_pop1 c) (g_central c) (g_satellite c) = Ok d).
Proof. exact galaxy_values. Qed.
Print Assumptions C95_galaxy_and_alignment_parameters.

Theorem C95_grids_and_power_spectra : forall table missing wrong (S : spectra table) o darkemu m,
  setup missing wrong o darkemu = Ok m -> forall b s,
  let X := module_ext table missing wrong S m in let c := config_of m in
  snd (execute X c b s) = Ok tt -> let w := p_power X (fst (fst (execute X c b s))) in
  exists zs ks p k t, table_of b "matter_power_lin" zs ks p /\
    let nz := Z.to_nat (int (o "nz_hmf") 15) in let nk := Z.to_nat (int (o "nk") 100) in
    let z := linspace (num (o "zmin_hmf") 0) (num (o "zmax_hmf") 3) nz in
    w "z_vec" = KAxis table nz z /\ w "k_vec" = KAxis table nk k /\ w "matter_power_lin" = KGrid table nz nk t /\
    k = logspace (log10 (nth 0 ks 0)) (log10 (nth (List.length ks - 1) ks 0)) nk /\
    ((2 <= List.length zs)%nat -> (2 <= List.length ks)%nat -> sorted zs -> sorted ks -> (0 < nth 0 ks 0)%R -> resamples nz nk z k t zs ks p) /\
    (flag o "response" \/ o "nonlinear_mode" = Some (OStr "fortuna") -> exists zs' ks' p' t', table_of b "matter_power_nl" zs' ks' p' /\
       w "matter_power_nl" = KGrid table nz nk t' /\ (exists v, w "response" = KBool table v /\ bool_is v o "response") /\
       ((2 <= List.length zs')%nat -> (2 <= List.length ks')%nat -> sorted zs' -> sorted ks' -> (0 < nth 0 ks' 0)%R -> resamples nz nk z k t' zs' ks' p')).
Proof. exact grid_facts. Qed.
Print Assumptions C95_grids_and_power_spectra.

Theorem C95_unreadable_blocks_are_rejected : forall table missing wrong (S : spectra table) o darkemu m,
  setup missing wrong o darkemu = Ok m -> forall b zs, b "matter_power_lin" "z" = Some (VArr zs) -> (2 <= List.length zs)%nat -> sorted zs ->
  let X := module_ext table missing wrong S m in let c := config_of m in
  ((exists kw, read_kwargs table missing wrong m b = Ok kw) <-> readable b (profile_section o) (m_hmf m)) /\
  (forall s, snd (execute X c b s) = Ok tt -> readable b (profile_section o) (m_hmf m)) /\
  (~ readable b (profile_section o) (m_hmf m) -> forall s, exists e, execute X c b s = (s, Err e)).
Proof.
  intros table missing wrong S o darkemu m H b zs E1 E2 E3. split; [exact (kwargs_readable table missing wrong o darkemu m H b zs E1 E2 E3)|].
  exact (readable_blocks table missing wrong S o darkemu m H b zs E1 E2 E3).
Qed.
Print Assumptions C95_unreadable_blocks_are_rejected.

Theorem C95_bnl_uses_the_same_cosmology : forall table missing wrong (S : spectra table) o darkemu m,
  setup missing wrong o darkemu = Ok m -> forall b s, o "nonlinear_mode" = Some (OStr "bnl") ->
  let X := module_ext table missing wrong S m in let c := config_of m in
  g_update_bnl c = 1%nat -> snd (execute X c b s) = Ok tt -> let w := p_power X (fst (fst (execute X c b s))) in
  exists a t, s_bnl table S a = Ok t /\ w "beta_nl" = KBeta table t /\
    w "z_vec" = KAxis table (b_nz a) (b_z a) /\ w "k_vec" = KAxis table (b_nk a) (b_k a) /\
    w "h0" = KVal table (Some (b_h0 a)) /\ w "omega_b" = KVal table (Some (b_ob a)) /\ w "omega_c" = KVal table (Some (b_oc a)) /\
    w "n_s" = KVal table (Some (b_ns a)) /\ w "w0" = KVal table (Some (b_w0 a)) /\
    b "cosmological_parameters" "A_s" = Some (b_As a) /\
    (exists om, b "cosmological_parameters" "omega_m" = Some (VNum om) /\ b_ol a = (1 - om)%R) /\
    exists mn mx d, w "Mmin" = num_kv table mn /\ w "Mmax" = num_kv table mx /\ w "dlog10m" = num_kv table d /\
      b_nm a = arange_len mn mx d /\ b_mass a = fun i => pow10 (arange mn d i).
Proof. exact bnl_cosmology. Qed.
Print Assumptions C95_bnl_uses_the_same_cosmology.

Theorem C95_keywords_are_parameters : forall table missing wrong (S : spectra table) m b base beta nl hod al,
  let X := module_ext table missing wrong S m in
  shaped X (config_of m) b base beta nl hod al -> let kw := x_full X base beta nl hod al in
  NoDup (map fst kw) /\ (forall n, In n (map fst kw) <-> passed (config_of m) n) /\ (forall n, In n (map fst kw) -> In n spectra_parameters).
Proof. exact keywords_are_parameters. Qed.
Print Assumptions C95_keywords_are_parameters.

Theorem C95_every_parameter_can_be_set_refuted :
  (forall n, In n spectra_parameters <->
     In n (always_set ++ ["beta_nl"] ++ set_for_nonlinear ++ set_for_galaxies ++ set_for_alignment ++ never_set)%list) /\
  forall table missing wrong (S : spectra table) m bs, let X := module_ext table missing wrong S m in
    In "Neff" spectra_parameters /\
    p_power X (calls table missing wrong S m bs (start table missing wrong S m)) "Neff" = s_default table S "Neff".
Proof.
  split; [exact (proj1 every_parameter)|]. intros table missing wrong S m bs. split; [apply every_parameter; cbn; tauto|].
  apply out_of_reach. exact (neff_not_passed (config_of m)).
Qed.
Print Assumptions C95_every_parameter_can_be_set_refuted.

Example C95_case : setup "ValueError" "x" kw_ini false = Ok kw_module /\
  (forall x st, exists st' lg, execute kw_ext (config_of kw_module) (kw_block x) (st, []) = ((st', lg), Ok tt)) /\
  (kw_block 2 "matter_power_lin" "z" = Some (VArr [0; 3]%R) /\ sorted [0; 3]%R) /\
  readable (kw_block 2) (profile_section kw_ini) (m_hmf kw_module) /\ ~ readable kw_bad (profile_section kw_ini) (m_hmf kw_module) /\
  wants_galaxies kw_ini /\ wants_alignment kw_ini.
Proof.
  split; [exact kw_setup|]. split; [exact kw_runs|]. split; [split; [reflexivity|exact two_sorted]|]. split; [apply kw_readable|].
  split; [|split; [left; reflexivity|right; right; reflexivity]]. exact kw_unreadable.
Qed.

(** C96 *)
Theorem C96_calls_have_no_memory : forall table missing wrong (S : spectra table) m bs b,
  let X := module_ext table missing wrong S m in let c := config_of m in
  g_mode c <> Some "bnl" \/ g_update_bnl c = 1%nat ->
  let r := execute X c b (calls table missing wrong S m bs (start table missing wrong S m), []) in
  let r0 := execute X c b (start table missing wrong S m, []) in
  snd r = snd r0 /\ snd (fst r) = snd (fst r0) /\ (snd r = Ok tt -> p_power X (fst (fst r)) = p_power X (fst (fst r0))).
Proof. exact no_memory. Qed.
Print Assumptions C96_calls_have_no_memory.

Theorem C96_bnl_memory_is_the_table : forall table missing wrong (S : spectra table) m bs1 bs2 b,
  let X := module_ext table missing wrong S m in let c := config_of m in
  let st1 := calls table missing wrong S m bs1 (start table missing wrong S m) in
  let st2 := calls table missing wrong S m bs2 (start table missing wrong S m) in
  p_calls X st1 = p_calls X st2 -> p_cached X st1 = p_cached X st2 ->
  let r1 := execute X c b (st1, []) in let r2 := execute X c b (st2, []) in
  snd r1 = snd r2 /\ snd (fst r1) = snd (fst r2) /\ (snd r1 = Ok tt -> p_power X (fst (fst r1)) = p_power X (fst (fst r2))).
Proof. exact same_table. Qed.
Print Assumptions C96_bnl_memory_is_the_table.

Example C96_case : g_mode (config_of kw_module) <> Some "bnl" /\
  exists st lg, execute kw_ext (config_of kw_module) (kw_block 3)
    (calls nat "ValueError" "x" kw_spectra kw_module [kw_block 2; kw_bad; kw_block 5] kw_start, []) = ((st, lg), Ok tt) /\
    p_power kw_ext st "sigma_8" = num_kv nat 3.
Proof.
  split; [discriminate|].
  destruct (kw_runs 3 (calls nat "ValueError" "x" kw_spectra kw_module [kw_block 2; kw_bad; kw_block 5] kw_start)) as (st & lg & E).
  exists st, lg. split; [exact E|].
  destruct (C95_parameters_are_options_and_block_values nat "ValueError" "x" kw_spectra kw_ini false kw_module kw_setup (kw_block 3)
    (calls nat "ValueError" "x" kw_spectra kw_module [kw_block 2; kw_bad; kw_block 5] kw_start, []) (f_equal snd E)) as (_ & _ & _ & V & _).
  rewrite Forall_forall in V. specialize (V ("sigma_8", ("cosmological_parameters", "sigma_8")) ltac:(cbn; tauto)) as (v & E1 & E2).
  injection E1 as <-. rewrite E in E2. exact E2.
Qed.
