(** C72-C80: background, growth and halo-model ingredients.  Vocabulary: HmiSpec. *)
From Verif Require Import Base Quad HmiModel HmiSpec HmiFacts HmiFacts2 HmiFacts3 HmiFacts4
  HmiFacts5 HmiFacts6 HmiExample.
Open Scope R_scope.

(** C72 *)
Theorem C72_acceleration_equation : forall c a Om Ode Ok, dark_energy_law c -> 0 < a ->
  derivable_pt_lim (fun t => Hubble2 c t Om Ode Ok) a
    (2 * (AH c a Om Ode - Hubble2 c a Om Ode Ok) / a).
Proof. exact acceleration. Qed.
Print Assumptions C72_acceleration_equation.

Theorem C72_expansion_today : forall c, flat_universe c ->
  Hubble2 c 1 (g_Om c) (g_Ode c) (g_Ok c) = 1 /\
  Omega_m c 1 (g_Om c) (g_Ode c) (g_Ok c) = co_Om0 c + co_Onu0 c.
Proof. exact today. Qed.
Print Assumptions C72_expansion_today.

Theorem C72_matter_fraction_is_a_fraction : forall c, dark_energy_law c -> flat_universe c ->
  forall a, 0 < a -> 0 < Hubble2 c a (g_Om c) (g_Ode c) (g_Ok c) /\
                     0 < Omega_m c a (g_Om c) (g_Ode c) (g_Ok c) <= 1.
Proof. intros c HD HF a Ha. split; [exact (hub_pos c HD HF a Ha)|exact (omega_m_range c HD HF a Ha)]. Qed.
Print Assumptions C72_matter_fraction_is_a_fraction.

Example C72_case : forall w0 wa,
  dark_energy_law {| co_w := cpl_w w0 wa; co_de := cpl_de w0 wa; co_Om := fun _ => 3/10;
    co_Onu := fun _ => 0; co_Om0 := 3/10; co_Onu0 := 0; co_Ok0 := 0 |} /\
  flat_universe (ex_cosmo (-1) (3/10) (1/100)).
Proof. intros. split; [apply cpl_law|apply ex_flat; lra]. Qed.

(** C73 *)
Theorem C73_growth_positive_and_increasing : forall c, dark_energy_law c -> flat_universe c ->
  forall d v, solves_growth c d v ->
  (forall a, g_a_init <= a <= 1 -> 0 < d a) /\
  (forall a b, g_a_init <= a -> a < b -> b <= 1 -> d a < d b).
Proof.
  intros c HD HF d v HS. split; [exact (growth_pos c HD HF d v HS)|exact (growth_increasing c HD HF d v HS)].
Qed.
Print Assumptions C73_growth_positive_and_increasing.

Theorem C73_growth_rate_between_zero_and_one : forall c, dark_energy_law c -> flat_universe c ->
  forall d v, solves_growth c d v -> forall a, g_a_init <= a <= 1 ->
  derivable_pt_lim d a (v a) /\ 0 < a * v a / d a <= 1.
Proof.
  intros c HD HF d v HS a Ha. split; [exact (d_der c d v HS a Ha)|].
  pose proof (growth_pos c HD HF d v HS a Ha). pose proof (v_pos c HD HF d v HS a Ha).
  pose proof (rate_le_one c HD HF d v HS a Ha). pose proof a_init_pos.
  assert (0 < a * v a) by (apply Rmult_lt_0_compat; lra). split; [apply Rdiv_lt_0_compat; assumption|].
  apply Rmult_le_reg_r with (d a); [assumption|].
  replace (a * v a / d a * d a) with (a * v a) by (field; lra). lra.
Qed.
Print Assumptions C73_growth_rate_between_zero_and_one.

Theorem C73_growth_is_suppressed : forall c, dark_energy_law c -> flat_universe c ->
  forall d v, solves_growth c d v ->
  forall a b, g_a_init <= a -> a <= b -> b <= 1 -> d b / b <= d a / a.
Proof. exact ratio_decreasing. Qed.
Print Assumptions C73_growth_is_suppressed.

Theorem C73_accumulated_growth : forall c, dark_energy_law c -> flat_universe c ->
  forall d v, solves_growth c d v ->
  (forall a, g_a_init <= a <= 1 -> d a <= accumulated_growth d a) /\
  (forall a b, g_a_init <= a -> a < b -> b <= 1 -> accumulated_growth d a < accumulated_growth d b).
Proof.
  intros c HD HF d v HS. split; [exact (accumulated_ge c HD HF d v HS)|exact (accumulated_incr c HD HF d v HS)].
Qed.
Print Assumptions C73_accumulated_growth.

Example C73_case : dark_energy_law ex_c /\ flat_universe ex_c /\ solves_growth ex_c ex_d ex_v /\
  Omega_m ex_c (1/2) (g_Om ex_c) (g_Ode ex_c) (g_Ok ex_c) = 1/3.
Proof.
  split; [apply ex_law|]. split; [apply ex_flat; lra|]. split; [exact ex_solves|apply ex_Om; lra].
Qed.

(** C74 *)
Theorem C74_eds_growth : forall c, dark_energy_law c -> flat_universe c ->
  forall d v, solves_growth c d v -> co_Om0 c + co_Onu0 c = 1 ->
  forall a, g_a_init <= a <= 1 -> d a = a /\ accumulated_growth d a = a.
Proof.
  intros c HD HF d v HS E a Ha.
  split; [exact (eds_growth c HD HF d v HS E a Ha)|exact (eds_accumulated c HD HF d v HS E a Ha)].
Qed.
Print Assumptions C74_eds_growth.

Theorem C74_eds_collapse : forall c d v z, dark_energy_law c -> flat_universe c -> solves_growth c d v ->
  co_Om0 c + co_Onu0 c = 1 -> co_Om c z + co_Onu c z = 1 -> 0 <= z <= 9999 ->
  let a := scale_factor z in
  Dv_Mead c (d a) (accumulated_growth d a) z = 18 * PI ^ 2 * (1 + 763/1000 * mead_fnu c) /\
  dc_Mead c (d a) (accumulated_growth d a) z
    = 10001/10000 * (3 / 20 * fpow (12 * PI) (2 / 3)) * (1 - 41/1000 * mead_fnu c).
Proof. exact eds_collapse. Qed.
Print Assumptions C74_eds_collapse.

Theorem C74_neutrino_fractions : forall c, 0 < co_Om0 c -> 0 <= co_Onu0 c ->
  let f := co_Onu0 c / co_Om0 c in
  mead_fnu c = f / (1 + f) /\ 0 <= mead_fnu c < 1 /\ mead_fnu c <= f /\
  (0 < co_Onu0 c -> mead_fnu c < f).
Proof. exact neutrino_fractions. Qed.
Print Assumptions C74_neutrino_fractions.

Theorem C74_reported_fnu : forall H z, In z (fnu H) ->
  z = co_Onu0 (hi_cosmo H) / co_Om0 (hi_cosmo H) /\ List.length (fnu H) = List.length (hi_z H).
Proof.
  intros H z Hz. unfold fnu in *. rewrite map_length. split; [|reflexivity].
  apply in_map_iff in Hz as (x & <- & _). reflexivity.
Qed.
Print Assumptions C74_reported_fnu.

Example C74_case : dark_energy_law ex_eds /\ flat_universe ex_eds /\
  solves_growth ex_eds (fun a => a) (fun _ => 1) /\ co_Om0 ex_eds + co_Onu0 ex_eds = 1 /\
  co_Om ex_eds 3 + co_Onu ex_eds 3 = 1 /\ 0 < co_Onu0 ex_eds.
Proof.
  split; [apply ex_law|]. split; [apply ex_flat; lra|]. split; [exact ex_eds_solves|]. cbn. lra.
Qed.

(** C75 *)
Theorem C75_hmcode_overrides : forall dset mset sigma8 prof0 H1 H2,
  agree_mead H1 H2 -> is_mead (hi_ingr H1) = true ->
  hmf_generator H1 dset mset sigma8 prof0 = hmf_generator H2 dset mset sigma8 prof0.
Proof. exact mead_overrides. Qed.
Print Assumptions C75_hmcode_overrides.

Theorem C75_other_ingredients : forall dset mset sigma8 prof0 H1 H2, agree_plain H1 H2 ->
  hmf_generator H1 dset mset sigma8 prof0 = hmf_generator H2 dset mset sigma8 prof0.
Proof. exact plain_independent. Qed.
Print Assumptions C75_other_ingredients.

Theorem C75_settings_of_every_redshift : forall H dset mset sigma8 prof0,
  setting_law dset -> model_law mset -> sigma8_law sigma8 -> hi_z H <> [] -> shapes_ok H ->
  exists cs ss, hmf_generator H dset mset sigma8 prof0 = Ok (cs, ss) /\
    List.length cs = List.length (hi_z H) /\ List.length ss = List.length (hi_z H) /\
    forall i, (i < List.length (hi_z H))%nat ->
      (exists x, nth_error cs i = Some x /\
         settings_of H sigma8 i (hi_prof_dm H) (hi_conc_dm H)
           (entry (hi_norm_cen H) i) (entry (hi_eta_cen H) i) x) /\
      (exists y, nth_error ss i = Some y /\
         settings_of H sigma8 i (hi_prof_sat H) (hi_conc_sat H)
           (entry (hi_norm_sat H) i) (entry (hi_eta_sat H) i) y).
Proof. exact generator_settings. Qed.
Print Assumptions C75_settings_of_every_redshift.

(** The two choices differ in what they ignore: with HMCode ingredients the
    mass definition passed by the user has no effect; the fit ingredient and no
    ingredient honour it alike. *)
Example C75_case :
  (forall m, agree_mead (ex_hmi Mead2020 m) (ex_hmi Mead2020 "SOVirial")) /\
  agree_plain (ex_hmi NoIngr "SOVirial") (ex_hmi FitIngr "SOVirial") /\
  setting_law dset_merge /\ setting_law dset_replace /\ model_law ex_mset /\ sigma8_law ex_s8 /\
  shapes_ok (ex_hmi Mead2020 "SOMean") /\ hi_z (ex_hmi Mead2020 "SOMean") <> [] /\
  dset_merge [("cosmo"%string, 1)] [("eta_bloat"%string, 2)]
    = [("cosmo"%string, 1); ("eta_bloat"%string, 2)].
Proof.
  split; [intros m; repeat (split; [reflexivity|]); reflexivity|].
  split.
  { repeat split. }
  split; [exact merge_law|]. split; [exact replace_law|]. split; [exact ex_mset_law|].
  split; [exact ex_s8_law|]. split; [apply ex_shapes|]. split; [discriminate|reflexivity].
Qed.

(** C76 *)
Theorem C76_redshifts_do_not_influence_each_other : forall H dset mset sigma8 prof0,
  setting_law dset -> model_law mset -> sigma8_law sigma8 -> hi_z H <> [] -> shapes_ok H ->
  exists cs ss, hmf_generator H dset mset sigma8 prof0 = Ok (cs, ss) /\
    List.length cs = List.length (hi_z H) /\ List.length ss = List.length (hi_z H) /\
    forall i, (i < List.length (hi_z H))%nat ->
      exists x y, nth_error cs i = Some x /\ nth_error ss i = Some y /\
                  hmf_generator (at_redshift H i) dset mset sigma8 prof0 = Ok ([x], [y]).
Proof. exact one_by_one. Qed.
Print Assumptions C76_redshifts_do_not_influence_each_other.

Theorem C76_accessor_rows : forall H dset mset sigma8 prof0,
  setting_law dset -> model_law mset -> sigma8_law sigma8 ->
  forall A (q : hpar -> A), hi_z H <> [] -> shapes_ok H ->
  exists rc rs, acc_cen H dset mset sigma8 prof0 q = Ok rc /\ acc_sat H dset mset sigma8 prof0 q = Ok rs /\
    List.length rc = List.length (hi_z H) /\ List.length rs = List.length (hi_z H) /\
    forall i, (i < List.length (hi_z H))%nat ->
      exists a b, nth_error rc i = Some a /\ nth_error rs i = Some b /\
        acc_cen (at_redshift H i) dset mset sigma8 prof0 q = Ok [a] /\
        acc_sat (at_redshift H i) dset mset sigma8 prof0 q = Ok [b].
Proof. exact @accessor_rows. Qed.
Print Assumptions C76_accessor_rows.

Theorem C76_when_it_fails : forall H dset mset sigma8 prof0,
  (exists e, hmf_generator H dset mset sigma8 prof0 = Err e) <->
  hi_z H = [] \/
  let nz := List.length (hi_z H) in
  let bad v := List.length v <> 1%nat /\ List.length v <> nz /\ nz <> 1%nat in
  bad (hi_norm_cen H) \/ bad (hi_norm_sat H) \/
  (is_mead (hi_ingr H) = false /\ (bad (hi_eta_cen H) \/ bad (hi_eta_sat H))).
Proof. exact generator_rejects. Qed.
Print Assumptions C76_when_it_fails.

(** The second central model of the example, computed through the loop. *)
Example C76_case : exists cs ss,
  hmf_generator (ex_hmi NoIngr "SOMean") dset_merge ex_mset ex_s8 [("cosmo"%string, 1)] = Ok (cs, ss) /\
  map hp_z cs = [0; 1] /\ map hp_prof_par cs
    = [[("cosmo"%string, 1); ("eta_bloat"%string, 0)]; [("cosmo"%string, 1); ("eta_bloat"%string, 0)]] /\
  map hp_prof ss = ["NFWx"%string; "NFWx"%string] /\
  map hp_conc_par ss = [[("norm"%string, 1)]; [("norm"%string, 2)]].
Proof. eexists. eexists. split; [reflexivity|]. repeat split. Qed.

(** C77 *)
Theorem C77_no_feedback : forall H z,
  (hi_ingr H = Mead2020 -> K H z = 5196/1000) /\ (is_mead (hi_ingr H) = false -> K H z = 0).
Proof. intros H z. split; [exact (K_mead2020 H z)|exact (K_plain H z)]. Qed.
Print Assumptions C77_no_feedback.

Theorem C77_feedback_decreases_with_redshift : forall H z z', hi_ingr H = Mead2020Fb ->
  78/10 - 671/371 < hi_log10T H < 78/10 + 3440/496 -> z < z' -> 0 < K H z' < K H z.
Proof. exact K_fb_z. Qed.
Print Assumptions C77_feedback_decreases_with_redshift.

Theorem C77_feedback_decreases_with_temperature : forall H1 H2 z,
  hi_ingr H1 = Mead2020Fb -> hi_ingr H2 = Mead2020Fb -> 0 <= z ->
  hi_log10T H1 < hi_log10T H2 -> hi_log10T H2 < 78/10 + 3440/496 -> K H2 z < K H1 z.
Proof. exact K_fb_T. Qed.
Print Assumptions C77_feedback_decreases_with_temperature.

Theorem C77_feedback_below_gravity_only : forall H1 H2 z,
  hi_ingr H1 = Mead2020Fb -> hi_ingr H2 = Mead2020 -> 0 <= z ->
  78/10 <= hi_log10T H1 < 78/10 + 3440/496 -> K H1 z <= 86/100 * K H2 z.
Proof. exact K_fb_le. Qed.
Print Assumptions C77_feedback_below_gravity_only.

Example C77_case : hi_ingr (ex_hmi Mead2020Fb "SOMean") = Mead2020Fb /\
  78/10 - 671/371 < hi_log10T (ex_hmi Mead2020Fb "SOMean") < 78/10 + 3440/496 /\
  K (ex_hmi Mead2020Fb "SOMean") 0 = 86/100 * K (ex_hmi Mead2020 "SOMean") 0.
Proof.
  split; [reflexivity|]. split; [cbn; lra|]. unfold K; cbn. rewrite Rmult_0_l, pow10_0. field.
Qed.

(** C78 *)
Theorem C78_formation_not_after_observation : forall g sigma root dc z,
  growing g -> root_law root g -> 0 <= z <= 999 ->
  forall M zf, 0 < sigma (1/100 * M) -> collapse_redshift g sigma root dc z M = Ok zf ->
  (sigma (1/100 * M) <= dc /\ zf = z) \/
  (dc < sigma (1/100 * M) /\ z < zf /\ 1/1000 <= scale_factor zf < scale_factor z /\
   g (scale_factor zf) * sigma (1/100 * M) = g (scale_factor z) * dc).
Proof. exact collapse_cases. Qed.
Print Assumptions C78_formation_not_after_observation.

Theorem C78_massive_haloes_form_later : forall g sigma root dc z,
  growing g -> root_law root g -> 0 <= z <= 999 ->
  forall M1 M2 z1 z2, 0 < sigma (1/100 * M2) -> sigma (1/100 * M2) <= sigma (1/100 * M1) ->
  collapse_redshift g sigma root dc z M1 = Ok z1 -> collapse_redshift g sigma root dc z M2 = Ok z2 ->
  z2 <= z1.
Proof. exact collapse_monotone. Qed.
Print Assumptions C78_massive_haloes_form_later.

Theorem C78_when_it_fails : forall g sigma root dc z,
  growing g -> root_law root g -> 0 <= z <= 999 ->
  forall M, 0 < sigma (1/100 * M) ->
  (exists e, collapse_redshift g sigma root dc z M = Err e) <->
  g (scale_factor z) * dc < g (1/1000) * sigma (1/100 * M).
Proof. exact collapse_fails. Qed.
Print Assumptions C78_when_it_fails.

Example C78_case : growing (fun a => a) /\ root_law ex_root (fun a => a) /\
  collapse_redshift (fun a => a) (fun M => / M) ex_root 2 0 10 = Ok 4.
Proof.
  split; [exact ex_growing|]. split; [exact ex_root_law|].
  unfold collapse_redshift. cbv zeta. unfold scale_factor.
  destruct (Rle_dec _ _) as [L|N].
  - exfalso. replace (1 / (1 + 0) * 2 / / (1 / 100 * 10)) with (2/10) in L by field. lra.
  - unfold ex_root. replace (- (0 - 1 / (1 + 0) * 2 / / (1 / 100 * 10))) with (2/10) by field.
    destruct (Rle_dec _ _) as [L1|N1]; [|lra]. destruct (Rle_dec _ _) as [L2|N2]; [|lra].
    f_equal. field.
Qed.

(** C79 *)
Theorem C79_no_neutrinos : forall k g ommh2 h N T, Tk_cold_ratio k g ommh2 h 0 N T = 1.
Proof. exact cold_no_neutrinos. Qed.
Print Assumptions C79_no_neutrinos.

Theorem C79_cold_ratio_bounded : forall g ommh2 h f N T,
  0 < g -> 0 < ommh2 -> 0 < f < 1 -> 0 < T ->
  forall k, 1 <= Tk_cold_ratio k g ommh2 h f N T <= 1 / (1 - f).
Proof. exact cold_bounds. Qed.
Print Assumptions C79_cold_ratio_bounded.

Theorem C79_cold_ratio_increases_with_k : forall g ommh2 h f N T,
  0 < g -> 0 < ommh2 -> 0 < h -> 0 < f < 1 -> 0 <= N -> 0 < T ->
  forall k k', 0 <= k -> k <= k' ->
  Tk_cold_ratio k g ommh2 h f N T <= Tk_cold_ratio k' g ommh2 h f N T.
Proof. exact cold_monotone. Qed.
Print Assumptions C79_cold_ratio_increases_with_k.

Theorem C79_continuous_at_zero_mass : forall g ommh2 h f N T,
  0 < g -> 0 < ommh2 -> 0 < f < 1 -> 0 < T ->
  forall k, Rabs (Tk_cold_ratio k g ommh2 h f N T - 1) <= f / (1 - f).
Proof. exact cold_near_one. Qed.
Print Assumptions C79_continuous_at_zero_mass.

Example C79_case : 0 < 1/100 < 1 /\ 0 < 27255/10000 /\
  1 <= Tk_cold_ratio 1 (1/2) (14/100) (7/10) (1/100) 3 (27255/10000) <= 100/99.
Proof.
  split; [lra|]. split; [lra|]. replace (100/99) with (1 / (1 - 1/100)) by field.
  apply cold_bounds; lra.
Qed.

(** C80 *)
Theorem C80_variance : forall n p k r, (2 <= n)%nat -> ln_uniform n k ->
  (forall i, (i < n)%nat -> 0 <= p i) ->
  0 <= sigmaR_cc n p k r /\
  sigmaR_cc n p k r ^ 2 = 1 / 2 / PI ^ 2
    * simpson n (fun i => p i * k i ^ 3 * tophat (r * k i) ^ 2) (fun i => INR i * ln (k 1%nat / k 0%nat)).
Proof. exact sigma_square. Qed.
Print Assumptions C80_variance.

Theorem C80_scales_with_amplitude : forall n p k r c, (1 <= n)%nat -> 0 <= c ->
  sigmaR_cc n (fun i => c ^ 2 * p i) k r = c * sigmaR_cc n p k r.
Proof. exact sigma_scale. Qed.
Print Assumptions C80_scales_with_amplitude.

Theorem C80_monotone_in_power : forall n p q k r, (2 <= n)%nat -> ln_uniform n k ->
  (forall i, (i < n)%nat -> p i <= q i) -> sigmaR_cc n p k r <= sigmaR_cc n q k r.
Proof. exact sigma_monotone. Qed.
Print Assumptions C80_monotone_in_power.

Example C80_case : ln_uniform 4 (fun i => 2 ^ i) /\ forall i, (i < 4)%nat -> 0 <= / 2 ^ i.
Proof.
  split.
  - split; [cbn; lra|]. split; [cbn; lra|]. intros i _. cbn [pow]. field.
  - intros i _. apply Rlt_le, Rinv_0_lt_compat, pow_lt. lra.
Qed.
