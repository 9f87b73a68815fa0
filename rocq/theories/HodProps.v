(** C05-C15: halo occupation distributions.  Vocabulary: HodSpec. *)
From Coquelicot Require Import Coquelicot.
From Verif Require Import Base Spec Quad Erf HodModel HodSpec HodFacts HodFacts2 HodExample.
Open Scope R_scope.

(** C05 *)
Theorem C05_total_occupation : forall c md b i m,
  hod_tot c md b i m = hod_cen c md b i m + hod_sat c md b i m.
Proof. exact hod_split. Qed.
Print Assumptions C05_total_occupation.

(** C06 *)
Theorem C06_number_densities_add : forall c md b i,
  number_density c md b i = number_density_cen c md b i + number_density_sat c md b i.
Proof. exact number_density_split. Qed.
Print Assumptions C06_number_densities_add.

Theorem C06_number_density_is_the_mass_integral : forall c md b j i Nc Ns n,
  valid_z c -> valid_mass c -> (3 <= c_nm c)%nat -> sampled c md b j i Nc Ns n ->
  is_parabola (fun M => Nc M * n M) -> is_parabola (fun M => Ns M * n M) ->
  number_density_cen c md b i
    = RInt (fun M => Nc M * n M) (c_mass c 0%nat) (c_mass c (c_nm c - 1)%nat) /\
  number_density_sat c md b i
    = RInt (fun M => Ns M * n M) (c_mass c 0%nat) (c_mass c (c_nm c - 1)%nat).
Proof. exact sampled_density. Qed.
Print Assumptions C06_number_density_is_the_mass_integral.

Theorem C06_number_density_nonneg : forall c md b i, valid_z c -> valid_mass c -> valid_hmf c ->
  (b < zbins (c_set c))%nat -> in_range c b i -> valid_hod c md b ->
  0 <= number_density_cen c md b i /\ 0 <= number_density_sat c md b i.
Proof. exact api_density_nonneg. Qed.
Print Assumptions C06_number_density_nonneg.

Example C06_case : valid_z ex_ctx /\ valid_mass ex_ctx /\ (3 <= c_nm ex_ctx)%nat /\
  sampled ex_ctx ex_simple 0 1 1 (fun _ => 1) (fun M => M) (fun _ => 1) /\
  is_parabola (fun M => 1 * 1) /\ is_parabola (fun M => M * 1).
Proof.
  split; [exact ex_valid_z|]. split; [exact ex_valid_mass|]. split; [simpl; lia|].
  split; [exact ex_sampled|]. split; [exists 1, 0, 0|exists 0, 1, 0]; intros; ring.
Qed.

(** C07 *)
Theorem C07_fractions_sum_to_one : forall c md b i, valid_z c -> (b < zbins (c_set c))%nat ->
  in_range c b i -> populated c md b -> f_c c md b i + f_s c md b i = 1.
Proof. exact fractions_sum. Qed.
Print Assumptions C07_fractions_sum_to_one.

Theorem C07_fractions_in_unit_interval : forall c md b i, valid_z c -> valid_mass c -> valid_hmf c ->
  (b < zbins (c_set c))%nat -> in_range c b i -> valid_hod c md b -> populated c md b ->
  0 <= f_c c md b i <= 1 /\ 0 <= f_s c md b i <= 1.
Proof. exact api_fractions_range. Qed.
Print Assumptions C07_fractions_in_unit_interval.

Theorem C07_fractions_vanish_outside : forall c md b i, out_of_range c b i ->
  f_c c md b i = 0 /\ f_s c md b i = 0.
Proof. exact fractions_outside. Qed.
Print Assumptions C07_fractions_vanish_outside.

Theorem C07_fractions_are_density_ratios : forall c md b j i, valid_z c ->
  (b < zbins (c_set c))%nat -> (j < nz (c_set c))%nat -> c_zvec c i = hod_z (c_set c) b j ->
  f_c c md b i = number_density_cen c md b i / number_density c md b i /\
  f_s c md b i = number_density_sat c md b i / number_density c md b i.
Proof. exact fractions_ratio. Qed.
Print Assumptions C07_fractions_are_density_ratios.

Example C07_case : valid_z ex_ctx /\ valid_mass ex_ctx /\ valid_hmf ex_ctx /\ in_range ex_ctx 0 1 /\
  out_of_range ex_ctx 1 0 /\ valid_hod ex_ctx ex_simple 0 /\ populated ex_ctx ex_simple 0.
Proof.
  repeat (split; [first [exact ex_valid_z|exact ex_valid_mass|exact ex_valid_hmf
    |apply ex_in_range|apply ex_valid_hod]|]). exact ex_populated.
Qed.

(** C08 *)
Theorem C08_bias_adds : forall c md b i,
  galaxy_linear_bias c md b i = galaxy_linear_bias_cen c md b i + galaxy_linear_bias_sat c md b i.
Proof. exact bias_split. Qed.
Print Assumptions C08_bias_adds.

Theorem C08_bias_between_halo_biases : forall c md lo hi b i, valid_z c -> valid_mass c -> valid_hmf c ->
  (b < zbins (c_set c))%nat -> in_range c b i -> valid_hod c md b -> populated c md b ->
  (forall i m, (i < c_nzv c)%nat -> (m < c_nm c)%nat -> lo <= c_bias c i m <= hi) ->
  lo <= galaxy_linear_bias c md b i <= hi.
Proof. exact api_bias_bounds. Qed.
Print Assumptions C08_bias_between_halo_biases.

Theorem C08_bias_constant : forall c md k b i, valid_z c -> valid_mass c -> valid_hmf c ->
  (b < zbins (c_set c))%nat -> in_range c b i -> valid_hod c md b -> populated c md b ->
  (forall i m, (i < c_nzv c)%nat -> (m < c_nm c)%nat -> c_bias c i m = k) ->
  galaxy_linear_bias c md b i = k.
Proof. exact api_bias_const. Qed.
Print Assumptions C08_bias_constant.

Theorem C08_bias_is_the_weighted_integral : forall c md b j i Nc Ns n bf,
  valid_z c -> valid_mass c -> (3 <= c_nm c)%nat -> sampled c md b j i Nc Ns n ->
  (forall m, (m < c_nm c)%nat -> c_bias c i m = bf (c_mass c m)) ->
  is_parabola (fun M => Nc M * bf M * n M) -> is_parabola (fun M => Ns M * bf M * n M) ->
  galaxy_linear_bias_cen c md b i
    = RInt (fun M => Nc M * bf M * n M) (c_mass c 0%nat) (c_mass c (c_nm c - 1)%nat)
      / number_density c md b i /\
  galaxy_linear_bias_sat c md b i
    = RInt (fun M => Ns M * bf M * n M) (c_mass c 0%nat) (c_mass c (c_nm c - 1)%nat)
      / number_density c md b i.
Proof. exact sampled_bias. Qed.
Print Assumptions C08_bias_is_the_weighted_integral.

Example C08_case : (forall i m, (i < c_nzv ex_ctx)%nat -> (m < c_nm ex_ctx)%nat -> 1 <= c_bias ex_ctx i m <= 17) /\
  (forall m, (m < c_nm ex_ctx)%nat -> c_bias ex_ctx 1 m = 1 + c_mass ex_ctx m) /\
  is_parabola (fun M => 1 * (1 + M) * 1) /\ is_parabola (fun M => M * (1 + M) * 1) /\
  valid_z ex_ctx /\ valid_mass ex_ctx /\ valid_hmf ex_ctx /\ in_range ex_ctx 0 1 /\
  valid_hod ex_ctx ex_simple 0 /\ populated ex_ctx ex_simple 0 /\
  sampled ex_ctx ex_simple 0 1 1 (fun _ => 1) (fun M => M) (fun _ => 1).
Proof.
  split.
  - intros i m _ Hm. change (c_nm ex_ctx) with 5%nat in Hm.
    change (c_bias ex_ctx i m) with (1 + 2 ^ m).
    assert (1 <= 2 ^ m) by (apply pow_R1_Rle; lra).
    assert (2 ^ m <= 2 ^ 4) by (apply Rle_pow; [lra|lia]). simpl in *; lra.
  - split; [reflexivity|]. split; [exists 1, 1, 0; intros; ring|]. split; [exists 0, 1, 1; intros; ring|].
    repeat (split; [first [exact ex_valid_z|exact ex_valid_mass|exact ex_valid_hmf
    |apply ex_in_range|apply ex_valid_hod|exact ex_populated]|]). exact ex_sampled.
Qed.

(** C10 *)
Theorem C10_central_occupation_is_a_probability : forall c md b i m,
  is_cacciato md = false -> valid_z c -> (b < zbins (c_set c))%nat -> within_unit (amp_cen md) ->
  0 <= hod_cen c md b i m <= 1.
Proof. exact cen_range. Qed.
Print Assumptions C10_central_occupation_is_a_probability.

Theorem C10_central_occupation_monotone : forall c md b i m m',
  is_cacciato md = false -> valid_z c -> valid_mass c -> (b < zbins (c_set c))%nat ->
  within_unit (amp_cen md) -> 0 <= scatter md b -> (m <= m')%nat -> (m' < c_nm c)%nat ->
  hod_cen c md b i m <= hod_cen c md b i m'.
Proof. exact cen_mono. Qed.
Print Assumptions C10_central_occupation_monotone.

Theorem C10_half_at_Mmin : forall c md b i m, valid_z c -> (b < zbins (c_set c))%nat -> scatter md b <> 0 ->
  (exists p, md = Zheng p /\ zh_A_cen p = None /\ c_mass c m = pow10 (bin_par (zh_log10_Mmin p) b)) \/
  (exists p, md = Zhai p /\ zi_A_cen p = None /\ c_mass c m = pow10 (bin_par (zi_log10_Mmin p) b)) ->
  hod_cen c md b i m = 1 / 2.
Proof. exact erf_cen_at_Mmin. Qed.
Print Assumptions C10_half_at_Mmin.

Theorem C10_step_at_Mmin : forall c md p b i m, md = Simple p \/ md = Zehavi p -> valid_z c ->
  (b < zbins (c_set c))%nat ->
  hod_cen c md b i m = if Rlt_dec (c_mass c m) (pow10 (bin_par (si_log10_Mmin p) b)) then 0 else 1.
Proof. exact step_cen_above. Qed.
Print Assumptions C10_step_at_Mmin.

Example C10_case : is_cacciato ex_zheng = false /\ valid_z ex_ctx /\ valid_mass ex_ctx /\
  within_unit (amp_cen ex_zheng) /\ 0 <= scatter ex_zheng 0 /\ scatter ex_zheng 0 <> 0 /\
  c_mass ex_ctx 0 = pow10 (bin_par [0; 0] 0).
Proof.
  split; [reflexivity|]. split; [exact ex_valid_z|]. split; [exact ex_valid_mass|].
  split; [intros a Ha; injection Ha as <-; lra|].
  split; [simpl; unfold bin_par; simpl; lra|]. split; [simpl; unfold bin_par; simpl; lra|].
  unfold bin_par; simpl. rewrite BaseFacts.pow10_0. reflexivity.
Qed.

(** C11 *)
Theorem C11_satellites_nonneg : forall c md b i m, is_cacciato md = false -> valid_z c ->
  (b < zbins (c_set c))%nat -> within_unit (amp_cen md) -> at_least_minus_one (amp_sat md) ->
  0 <= hod_sat c md b i m.
Proof. exact sat_nonneg. Qed.
Print Assumptions C11_satellites_nonneg.

Theorem C11_satellites_monotone : forall c md b i m m', is_cacciato md = false -> valid_z c -> valid_mass c ->
  (b < zbins (c_set c))%nat -> within_unit (amp_cen md) -> at_least_minus_one (amp_sat md) ->
  0 < slope md b -> (m <= m')%nat -> (m' < c_nm c)%nat -> hod_sat c md b i m <= hod_sat c md b i m'.
Proof. exact sat_mono. Qed.
Print Assumptions C11_satellites_monotone.

Theorem C11_zheng_cutoff : forall c p b i m, valid_z c -> (b < zbins (c_set c))%nat ->
  0 < bin_par (zh_alpha p) b -> c_mass c m <= pow10 (bin_par (zh_log10_M0 p) b) ->
  hod_sat c (Zheng p) b i m = 0.
Proof. exact zheng_cutoff. Qed.
Print Assumptions C11_zheng_cutoff.

Theorem C11_zheng_above_cutoff : forall c p b i m, valid_z c -> (b < zbins (c_set c))%nat ->
  pow10 (bin_par (zh_log10_M0 p) b) <= c_mass c m -> zh_A_sat p = None ->
  hod_sat c (Zheng p) b i m
  = fpow ((c_mass c m - pow10 (bin_par (zh_log10_M0 p) b)) / pow10 (bin_par (zh_log10_M1 p) b))
         (bin_par (zh_alpha p) b).
Proof. exact zheng_above. Qed.
Print Assumptions C11_zheng_above_cutoff.

Theorem C11_simple_cutoff : forall c p b i m, valid_z c -> (b < zbins (c_set c))%nat ->
  c_mass c m < pow10 (bin_par (si_log10_Mmin p) b) ->
  hod_cen c (Simple p) b i m = 0 /\ hod_sat c (Simple p) b i m = 0.
Proof. exact simple_cutoff. Qed.
Print Assumptions C11_simple_cutoff.

Theorem C11_zehavi_unit_at_Msat : forall c p b i m, valid_z c -> (b < zbins (c_set c))%nat ->
  si_A_sat p = None -> c_mass c m = pow10 (bin_par (si_log10_Msat p) b) -> hod_sat c (Zehavi p) b i m = 1.
Proof. exact zehavi_at_Msat. Qed.
Print Assumptions C11_zehavi_unit_at_Msat.

Theorem C11_zehavi_power_law : forall c p b i m m' k, valid_z c -> (b < zbins (c_set c))%nat ->
  si_A_sat p = None -> 0 < c_mass c m -> 0 < k -> c_mass c m' = k * c_mass c m ->
  hod_sat c (Zehavi p) b i m' = Rpower k (bin_par (si_alpha p) b) * hod_sat c (Zehavi p) b i m.
Proof. exact zehavi_slope. Qed.
Print Assumptions C11_zehavi_power_law.

Theorem C11_simple_is_zehavi_above_Mmin : forall c p b i m, valid_z c -> (b < zbins (c_set c))%nat ->
  pow10 (bin_par (si_log10_Mmin p) b) <= c_mass c m -> si_A_sat p = None ->
  hod_sat c (Simple p) b i m = hod_sat c (Zehavi p) b i m.
Proof. exact simple_sat_above. Qed.
Print Assumptions C11_simple_is_zehavi_above_Mmin.

Theorem C11_zhai_is_damped_zehavi : forall c p q b i m, valid_z c -> (b < zbins (c_set c))%nat ->
  zi_A_sat p = si_A_sat q -> bin_par (zi_log10_Msat p) b = bin_par (si_log10_Msat q) b ->
  bin_par (zi_alpha p) b = bin_par (si_alpha q) b ->
  hod_sat c (Zhai p) b i m
  = hod_sat c (Zehavi q) b i m * exp (- (pow10 (bin_par (zi_log10_Mcut p) b) / c_mass c m)).
Proof. exact zhai_damped. Qed.
Print Assumptions C11_zhai_is_damped_zehavi.

Example C11_case : is_cacciato ex_zheng = false /\ within_unit (amp_cen ex_zheng) /\
  at_least_minus_one (amp_sat ex_zheng) /\ 0 < slope ex_zheng 0 /\
  c_mass ex_ctx 0 <= pow10 (bin_par [0; 0] 0) /\ pow10 (bin_par [0; 0] 0) <= c_mass ex_ctx 3 /\
  c_mass ex_ctx 3 = 2 * c_mass ex_ctx 2.
Proof.
  split; [reflexivity|]. split; [intros a Ha; injection Ha as <-; lra|].
  split; [intros a Ha; injection Ha as <-; lra|].
  unfold bin_par; simpl. unfold bin_par; simpl. rewrite BaseFacts.pow10_0. lra.
Qed.

(** C12 *)
Theorem C12_zheng_without_scatter_has_zehavi_centrals : forall c p q b i m, valid_z c ->
  (b < zbins (c_set c))%nat -> bin_par (zh_sigma p) b = 0 -> zh_A_cen p = si_A_cen q ->
  bin_par (zh_log10_Mmin p) b = bin_par (si_log10_Mmin q) b ->
  hod_cen c (Zheng p) b i m = hod_cen c (Zehavi q) b i m.
Proof. exact zheng_zehavi_cen. Qed.
Print Assumptions C12_zheng_without_scatter_has_zehavi_centrals.

Theorem C12_zheng_satellites_tend_to_zehavi : forall c q b i m eps, valid_z c ->
  (b < zbins (c_set c))%nat -> 0 < c_mass c m -> 0 < eps -> exists L, forall p,
    bin_par (zh_log10_M0 p) b < L -> zh_A_sat p = si_A_sat q ->
    bin_par (zh_log10_M1 p) b = bin_par (si_log10_Msat q) b -> bin_par (zh_alpha p) b = bin_par (si_alpha q) b ->
    Rabs (hod_sat c (Zheng p) b i m - hod_sat c (Zehavi q) b i m) < eps.
Proof. exact zheng_zehavi_sat_lim. Qed.
Print Assumptions C12_zheng_satellites_tend_to_zehavi.

Example C12_case : valid_z ex_ctx /\ 0 < c_mass ex_ctx 2 /\ bin_par [0] 1 = 0.
Proof. split; [exact ex_valid_z|]. split; [simpl; lra|reflexivity]. Qed.

(** C13 *)
Theorem C13_central_decoration_neutral_at_zero : forall c md As b i m,
  hod_cen c (with_decoration (Some 0) As md) b i m = hod_cen c (with_decoration None As md) b i m.
Proof. exact deco_zero_cen. Qed.
Print Assumptions C13_central_decoration_neutral_at_zero.

Theorem C13_satellite_decoration_scales : forall c md Ac a b i m,
  hod_sat c (with_decoration Ac (Some a) md) b i m = (1 + a) * hod_sat c (with_decoration Ac None md) b i m.
Proof. exact deco_sat_scale. Qed.
Print Assumptions C13_satellite_decoration_scales.

Theorem C13_satellite_decoration_neutral_at_zero : forall c md Ac b i m,
  hod_sat c (with_decoration Ac (Some 0) md) b i m = hod_sat c (with_decoration Ac None md) b i m.
Proof. exact deco_sat_zero. Qed.
Print Assumptions C13_satellite_decoration_neutral_at_zero.

Theorem C13_decoration_preserves_probability : forall c md Ac As b j i m,
  valid_z c -> (b < zbins (c_set c))%nat -> (j < nz (c_set c))%nat ->
  c_zvec c i = hod_z (c_set c) b j -> within_unit Ac ->
  0 <= hod_cen c (with_decoration None As md) b i m <= 1 ->
  0 <= hod_cen c (with_decoration Ac As md) b i m <= 1.
Proof. exact deco_preserves. Qed.
Print Assumptions C13_decoration_preserves_probability.

Theorem C13_central_decoration_value : forall c md a As b i m,
  is_cacciato md = false -> valid_z c -> (b < zbins (c_set c))%nat ->
  let N := hod_cen c (with_decoration None As md) b i m in
  hod_cen c (with_decoration (Some a) As md) b i m = N + a * Rmin N (1 - N).
Proof. exact deco_cen_value. Qed.
Print Assumptions C13_central_decoration_value.

Theorem C13_step_models_ignore_central_decoration : forall c md p Ac As b i m,
  md = Simple p \/ md = Zehavi p -> valid_z c -> (b < zbins (c_set c))%nat ->
  hod_cen c (with_decoration Ac As md) b i m = hod_cen c md b i m.
Proof. exact deco_step_inert. Qed.
Print Assumptions C13_step_models_ignore_central_decoration.

Example C13_case : is_cacciato (with_decoration None None ex_zheng) = false /\ valid_z ex_ctx /\
  (0 < zbins (c_set ex_ctx))%nat.
Proof. split; [reflexivity|]. split; [exact ex_valid_z|change (0 < 2)%nat; lia]. Qed.

(** C14 *)
Theorem C14_obs_func_splits : forall c p b j o,
  obs_func c p b j o = obs_func_cen c p b j o + obs_func_sat c p b j o.
Proof. exact obs_func_split. Qed.
Print Assumptions C14_obs_func_splits.

Theorem C14_stellar_fraction_splits : forall c md b i m,
  stellar_fraction c md b i m = stellar_fraction_cen c md b i m + stellar_fraction_sat c md b i m.
Proof. exact star_split. Qed.
Print Assumptions C14_stellar_fraction_splits.

Theorem C14_obs_func_nonneg : forall c p b j o, valid_z c -> valid_mass c -> valid_hmf c -> valid_cacciato p ->
  (b < zbins (c_set c))%nat -> (j < nz (c_set c))%nat ->
  0 <= obs_func_cen c p b j o /\ 0 <= obs_func_sat c p b j o.
Proof. exact obs_func_nonneg. Qed.
Print Assumptions C14_obs_func_nonneg.

Theorem C14_stellar_fraction_nonneg : forall c md b i m, valid_z c -> valid_mass c -> 0 <= c_h c ->
  (forall p, md = Cacciato p -> valid_cacciato p /\ valid_obs c b) ->
  (b < zbins (c_set c))%nat -> in_range c b i -> (m < c_nm c)%nat ->
  0 <= stellar_fraction_cen c md b i m /\ 0 <= stellar_fraction_sat c md b i m.
Proof. exact star_nonneg. Qed.
Print Assumptions C14_stellar_fraction_nonneg.

(** Centrals follow a log-normal, satellites a modified Schechter function. *)
Theorem C14_cacciato_centrals_are_lognormal : forall c p b j i m,
  valid_z c -> valid_mass c -> (1 <= hs_nobs (c_set c))%nat -> ca_sigma p <> 0 -> ca_A_cen p = None ->
  (b < zbins (c_set c))%nat -> (j < nz (c_set c))%nat -> (m < c_nm c)%nat ->
  c_zvec c i = hod_z (c_set c) b j ->
  hod_cen c (Cacciato p) b i m
  = simpson (hs_nobs (c_set c)) (fun o => lognormal10 (ca_sigma p) (ca_mean p (c_mass c m)) (hod_obs (c_set c) b j o))
      (hod_obs (c_set c) b j).
Proof. exact cacciato_cen_node. Qed.
Print Assumptions C14_cacciato_centrals_are_lognormal.

Theorem C14_cacciato_satellites_are_schechter : forall c p b j i m,
  valid_z c -> valid_mass c -> 0 < ca_norm_s p -> ca_A_sat p = None ->
  (b < zbins (c_set c))%nat -> (j < nz (c_set c))%nat -> (m < c_nm c)%nat ->
  c_zvec c i = hod_z (c_set c) b j ->
  hod_sat c (Cacciato p) b i m
  = simpson (hs_nobs (c_set c)) (fun o => schechter (sat_norm p (c_mass c m)) (ca_alpha_s p) (ca_beta_s p)
        (ca_norm_s p * ca_mean p (c_mass c m)) (hod_obs (c_set c) b j o))
      (hod_obs (c_set c) b j).
Proof. exact cacciato_sat_node. Qed.
Print Assumptions C14_cacciato_satellites_are_schechter.

Theorem C14_obs_func_integrates_over_haloes : forall c p b j i o, valid_z c -> valid_mass c -> valid_cacciato p ->
  (i < c_nzv c)%nat -> c_zvec c i = hod_z (c_set c) b j ->
  obs_func_cen c p b j o
  = simpson (c_nm c) (fun m => lognormal10 (ca_sigma p) (ca_mean p (c_mass c m)) (hod_obs (c_set c) b j o)
                        * (c_dndlnm c i m / c_mass c m)) (c_mass c) /\
  obs_func_sat c p b j o
  = simpson (c_nm c) (fun m => schechter (sat_norm p (c_mass c m)) (ca_alpha_s p) (ca_beta_s p)
                          (ca_norm_s p * ca_mean p (c_mass c m)) (hod_obs (c_set c) b j o)
                        * (c_dndlnm c i m / c_mass c m)) (c_mass c).
Proof. exact obs_func_node. Qed.
Print Assumptions C14_obs_func_integrates_over_haloes.

(** The central distribution integrates to the normal distribution function. *)
Theorem C14_central_distribution_function : forall p m lo hi, 0 < ca_sigma p -> 0 < m -> 0 < lo -> lo <= hi ->
  RInt (fun o => cof_cen p o m) lo hi
  = 1 / 2 * (erf (log10 (hi / mean_obs_c p m) / (sqrt 2 * ca_sigma p))
             - erf (log10 (lo / mean_obs_c p m) / (sqrt 2 * ca_sigma p))).
Proof. exact cof_cen_RInt. Qed.
Print Assumptions C14_central_distribution_function.

Theorem C14_stellar_fraction_is_mean_observable_over_mass : forall c p b j i m,
  valid_z c -> valid_mass c -> valid_cacciato p ->
  (b < zbins (c_set c))%nat -> (j < nz (c_set c))%nat -> (m < c_nm c)%nat ->
  c_zvec c i = hod_z (c_set c) b j -> hs_unit (c_set c) = "1/h"%string ->
  stellar_fraction_cen c (Cacciato p) b i m
  = simpson (hs_nobs (c_set c)) (fun o => hod_obs (c_set c) b j o
       * lognormal10 (ca_sigma p) (ca_mean p (c_mass c m)) (hod_obs (c_set c) b j o))
      (hod_obs (c_set c) b j) / c_mass c m.
Proof. exact star_node. Qed.
Print Assumptions C14_stellar_fraction_is_mean_observable_over_mass.

Theorem C14_stellar_fraction_units : forall c c' p b i m,
  c_set c' = {| hs_file := hs_file (c_set c); hs_obs_min := hs_obs_min (c_set c);
     hs_obs_max := hs_obs_max (c_set c); hs_zmin := hs_zmin (c_set c); hs_zmax := hs_zmax (c_set c);
     hs_nz := hs_nz (c_set c); hs_nobs := hs_nobs (c_set c); hs_unit := "1/h^2" |} ->
  hs_unit (c_set c) = "1/h"%string -> c_mass c' = c_mass c -> c_zvec c' = c_zvec c ->
  stellar_fraction c' (Cacciato p) b i m = stellar_fraction c (Cacciato p) b i m * c_h c'.
Proof. exact star_unit. Qed.
Print Assumptions C14_stellar_fraction_units.

Example C14_case : valid_cacciato ex_cac /\ valid_obs ex_ctx 0 /\ in_range ex_ctx 0 1 /\
  hs_unit (c_set ex_ctx) = "1/h"%string /\ c_zvec ex_ctx 1 = hod_z (c_set ex_ctx) 0 1.
Proof.
  destruct ex_valid_hod as (_ & _ & H1 & H2 & _). split; [exact H1|]. split; [exact H2|].
  split; [apply ex_in_range|]. split; [reflexivity|]. change (INR 1 / 2 = hod_z ex_set 0 1). rewrite (ex_z0 1) by lia. reflexivity.
Qed.

(** C15 *)
Theorem C15_observable_range : forall s b j, hs_file s = None -> (2 <= hs_nobs s)%nat ->
  hod_obs s b j 0 = pow10 (nth b (hs_obs_min s) 0) /\
  hod_obs s b j (hs_nobs s - 1) = pow10 (nth b (hs_obs_max s) 0).
Proof. exact obs_ends_plain. Qed.
Print Assumptions C15_observable_range.

Theorem C15_observable_range_from_file : forall s d j z lo hi b, hs_file s = Some d -> (2 <= hs_nobs s)%nat ->
  nth_error d j = Some (z, lo, hi) -> 0 < lo -> 0 < hi ->
  hod_z s b j = z /\ hod_obs s b j 0 = lo /\ hod_obs s b j (hs_nobs s - 1) = hi.
Proof. exact obs_ends_file. Qed.
Print Assumptions C15_observable_range_from_file.

Theorem C15_observables_increasing : forall s b j, (2 <= hs_nobs s)%nat -> log_obs_min s b j < log_obs_max s b j ->
  increasing (hs_nobs s) (hod_obs s b j).
Proof. exact obs_increasing. Qed.
Print Assumptions C15_observables_increasing.

Theorem C15_redshift_range : forall s b, hs_file s = None -> (2 <= hs_nz s)%nat -> (b < zbins s)%nat ->
  hod_z s b 0 = nth b (hs_zmin s) 0 /\ hod_z s b (hs_nz s - 1) = nth b (hs_zmax s) 0 /\
  (nth b (hs_zmin s) 0 < nth b (hs_zmax s) 0 -> increasing (hs_nz s) (hod_z s b)).
Proof. exact z_ends. Qed.
Print Assumptions C15_redshift_range.

Theorem C15_bins_returned : forall c md n f, hs_file (c_set c) = None ->
  List.length (hs_zmin (c_set c)) = List.length (hs_obs_min (c_set c)) ->
  List.length (hs_zmax (c_set c)) = List.length (hs_obs_min (c_set c)) ->
  hod_cen_call c md = Ok (n, f) -> n = List.length (hs_obs_min (c_set c)).
Proof. exact hod_call_bins. Qed.
Print Assumptions C15_bins_returned.

(** Without equal list lengths bins are dropped silently. *)
Theorem C15_bins_returned_refuted : exists c md f,
  hod_cen_call c md = Ok (1%nat, f) /\ List.length (hs_obs_min (c_set c)) = 3%nat.
Proof. exact hod_call_short. Qed.
Print Assumptions C15_bins_returned_refuted.

(** Scalar HOD parameters (the defaults) are rejected as soon as there are two bins. *)
Theorem C15_scalar_parameters_rejected : forall c p,
  List.length (zh_sigma p) = 1%nat -> List.length (zh_log10_Mmin p) = 1%nat ->
  (2 <= zbins (c_set c))%nat -> hod_cen_call c (Zheng p) = Err "IndexError".
Proof. exact hod_call_scalar. Qed.
Print Assumptions C15_scalar_parameters_rejected.

Example C15_case : hs_file ex_set = None /\ (2 <= hs_nobs ex_set)%nat /\ (1 < zbins ex_set)%nat /\
  List.length (hs_zmin ex_set) = List.length (hs_obs_min ex_set) /\
  List.length (hs_zmax ex_set) = List.length (hs_obs_min ex_set) /\
  (exists f, hod_cen_call ex_ctx ex_simple = Ok (2%nat, f)).
Proof. repeat split; try (simpl; lia); try (change (1 < 2)%nat; lia). eexists. reflexivity. Qed.
