(** Properties of the observable functions and of the Cacciato central distribution (C81, C82). *)
From Coquelicot Require Import Coquelicot.
From Verif Require Import Base Spec Quad Interp Erf HodModel HodSpec ObsModel ObsSpec BaseFacts QuadFacts
  HodFacts2 HodExample ObsFacts.
Open Scope R_scope.

(** C81 *)
Theorem C81_observable_function_integrates_to_number_density : forall c p b j i, valid_z c -> valid_mass c ->
  (b < zbins (c_set c))%nat -> (j < nz (c_set c))%nat ->
  c_zvec c i = hod_z (c_set c) b j -> ca_A_cen p = None -> ca_A_sat p = None ->
  let O := hod_obs (c_set c) b j in
  simpson (hs_nobs (c_set c)) (obs_func_cen c p b j) O = number_density_cen c (Cacciato p) b i /\
  simpson (hs_nobs (c_set c)) (obs_func_sat c p b j) O = number_density_sat c (Cacciato p) b i /\
  simpson (hs_nobs (c_set c)) (obs_func c p b j) O = number_density c (Cacciato p) b i.
Proof. exact api_obs_density. Qed.
Print Assumptions C81_observable_function_integrates_to_number_density.

Theorem C81_observable_function_ignores_decoration : forall c p b j i a, valid_z c -> valid_mass c ->
  (b < zbins (c_set c))%nat -> (j < nz (c_set c))%nat ->
  c_zvec c i = hod_z (c_set c) b j -> ca_A_sat p = Some a ->
  number_density_sat c (Cacciato p) b i
  = (1 + a) * simpson (hs_nobs (c_set c)) (obs_func_sat c p b j) (hod_obs (c_set c) b j).
Proof. exact api_obs_decorated. Qed.
Print Assumptions C81_observable_function_ignores_decoration.

Theorem C81_spectra_function_integrates_to_number_density : forall c p b j i v, valid_z c -> valid_mass c ->
  (b < zbins (c_set c))%nat -> (j < nz (c_set c))%nat ->
  c_zvec c i = hod_z (c_set c) b j -> ca_A_cen p = None -> ca_A_sat p = None ->
  sp_obs_func c (Cacciato p) true (c_set c) = Some v ->
  simpson (hs_nobs (c_set c)) (fun o => v b j o / (ln 10 * hod_obs (c_set c) b j o)) (hod_obs (c_set c) b j)
  = number_density c (Cacciato p) b i.
Proof. exact api_sp_density. Qed.
Print Assumptions C81_spectra_function_integrates_to_number_density.

Theorem C81_central_function_is_per_dex : forall c p s b j i o v, valid_z (with_settings c s) -> valid_mass c ->
  0 < ca_sigma p -> (i < c_nzv c)%nat -> c_zvec c i = hod_z s b j ->
  sp_obs_func_cen c (Cacciato p) true s = Some v ->
  is_derive (centrals_below (c_nm c) (c_mass c) (c_dndlnm c i) p) (log10 (hod_obs s b j o)) (v b j o).
Proof. exact sp_cen_per_dex. Qed.
Print Assumptions C81_central_function_is_per_dex.

Theorem C81_satellite_function_is_per_dex : forall c p s b j i o v, valid_z (with_settings c s) -> valid_mass c ->
  0 < ca_norm_s p -> (i < c_nzv c)%nat -> c_zvec c i = hod_z s b j ->
  sp_obs_func_sat c (Cacciato p) true s = Some v ->
  v b j o = simpson (c_nm c) (fun m => ln 10 * hod_obs s b j o
      * schechter (sat_norm p (c_mass c m)) (ca_alpha_s p) (ca_beta_s p)
                  (ca_norm_s p * ca_mean p (c_mass c m)) (hod_obs s b j o)
      * c_dndlnm c i m / c_mass c m) (c_mass c).
Proof. exact sp_sat_value. Qed.
Print Assumptions C81_satellite_function_is_per_dex.

Theorem C81_spectra_function_splits : forall c md f s b j o v vc vs, sp_obs_func c md f s = Some v ->
  sp_obs_func_cen c md f s = Some vc -> sp_obs_func_sat c md f s = Some vs ->
  v b j o = vc b j o + vs b j o.
Proof. exact sp_split. Qed.
Print Assumptions C81_spectra_function_splits.

Theorem C81_spectra_function_nonneg : forall c p s b j o vc vs, valid_z (with_settings c s) -> valid_mass c ->
  valid_hmf (with_settings c s) -> valid_cacciato p -> (b < zbins s)%nat -> (j < nz s)%nat ->
  sp_obs_func_cen c (Cacciato p) true s = Some vc -> sp_obs_func_sat c (Cacciato p) true s = Some vs ->
  0 <= vc b j o /\ 0 <= vs b j o.
Proof. exact sp_nonneg. Qed.
Print Assumptions C81_spectra_function_nonneg.

Theorem C81_axes_are_the_observable_settings : forall c p s vo vz,
  sp_obs_func_obs c (Cacciato p) true s = Some vo -> sp_obs_func_z c (Cacciato p) true s = Some vz ->
  vo = hod_obs s /\ vz = hod_z s.
Proof. exact sp_axes. Qed.
Print Assumptions C81_axes_are_the_observable_settings.

Theorem C81_none_unless_requested_for_cacciato : forall c md f s,
  (sp_obs_func c md f s = None <-> is_cacciato md = false \/ f = false) /\
  (sp_obs_func_cen c md f s = None <-> is_cacciato md = false \/ f = false) /\
  (sp_obs_func_sat c md f s = None <-> is_cacciato md = false \/ f = false) /\
  (sp_obs_func_obs c md f s = None <-> is_cacciato md = false \/ f = false) /\
  (sp_obs_func_z c md f s = None <-> is_cacciato md = false \/ f = false).
Proof. exact sp_none. Qed.
Print Assumptions C81_none_unless_requested_for_cacciato.

(** The example request: two bins, three redshifts, five masses, galaxy grid used as observable grid. *)
Example C81_case : valid_z ex_ctx /\ valid_mass ex_ctx /\ valid_hmf ex_ctx /\ valid_cacciato ex_cac /\
  c_zvec ex_ctx 1 = hod_z (c_set ex_ctx) 0 1 /\ ca_A_cen ex_cac = None /\ ca_A_sat ex_cac = None /\
  exists v, sp_obs_func ex_ctx (Cacciato ex_cac) true (c_set ex_ctx) = Some v.
Proof.
  split; [exact ex_valid_z|]. split; [exact ex_valid_mass|]. split; [exact ex_valid_hmf|].
  split; [split; simpl; lra|]. split; [symmetry; apply (ex_z0 1); lia|].
  split; [reflexivity|]. split; [reflexivity|]. eexists; reflexivity.
Qed.

(** C82 *)
Theorem C82_slope_between_the_two_power_laws : forall p M M', 0 < M -> M <= M' ->
  Rpower (M' / M) (Rmin (ca_g1 p) (ca_g2 p)) <= mean_obs_c p M' / mean_obs_c p M
  <= Rpower (M' / M) (Rmax (ca_g1 p) (ca_g2 p)).
Proof. intros p M M' H H'. rewrite !mean_obs_dpl by lra. exact (ca_mean_slopes p M M' H H'). Qed.
Print Assumptions C82_slope_between_the_two_power_laws.

Theorem C82_mean_observable_increases : forall p M M', 0 < ca_g1 p -> 0 < ca_g2 p -> 0 < M -> M < M' ->
  mean_obs_c p M < mean_obs_c p M'.
Proof. intros p M M' H1 H2 H H'. rewrite !mean_obs_dpl by lra. exact (ca_mean_incr p M M' H1 H2 H H'). Qed.
Print Assumptions C82_mean_observable_increases.

Theorem C82_low_mass_slope_is_g1 : forall p eps, 0 < eps -> exists M0, 0 < M0 /\ forall M, 0 < M <= M0 ->
  Rabs (mean_obs_c p M / (pow10 (ca_log10_obs_norm_c p) * Rpower (M / pow10 (ca_log10_m_ch p)) (ca_g1 p)) - 1) < eps.
Proof.
  intros p eps H. destruct (ca_mean_low p eps H) as [M0 [H0 HM]]. exists M0. split; [exact H0|].
  intros M Hm. rewrite mean_obs_dpl by lra. exact (HM M Hm).
Qed.
Print Assumptions C82_low_mass_slope_is_g1.

Theorem C82_high_mass_slope_is_g2 : forall p eps, 0 < eps -> exists M0, 0 < M0 /\ forall M, M0 <= M ->
  Rabs (mean_obs_c p M / (pow10 (ca_log10_obs_norm_c p) * Rpower (M / pow10 (ca_log10_m_ch p)) (ca_g2 p)) - 1) < eps.
Proof.
  intros p eps H. destruct (ca_mean_high p eps H) as [M0 [H0 HM]]. exists M0. split; [exact H0|].
  intros M Hm. rewrite mean_obs_dpl by lra. exact (HM M Hm).
Qed.
Print Assumptions C82_high_mass_slope_is_g2.

(** Every halo hosts one central in total ... *)
Theorem C82_one_central_per_halo : forall p M eps, 0 < ca_sigma p -> 0 < M -> 0 < eps ->
  exists lo0 hi0, 0 < lo0 < hi0 /\ forall lo hi, 0 < lo <= lo0 -> hi0 <= hi ->
    1 - eps < RInt (fun o => cof_cen p o M) lo hi <= 1.
Proof. exact cen_norm. Qed.
Print Assumptions C82_one_central_per_halo.

(** ... half of them below the mean relation, symmetrically in log O. *)
Theorem C82_mean_relation_is_the_median : forall p M lo hi, 0 < ca_sigma p -> 0 < M -> 0 < lo ->
  mean_obs_c p M / lo = hi / mean_obs_c p M -> lo <= mean_obs_c p M ->
  RInt (fun o => cof_cen p o M) lo (mean_obs_c p M) = RInt (fun o => cof_cen p o M) (mean_obs_c p M) hi.
Proof. intros p M lo hi Hs HM. rewrite mean_obs_dpl by exact HM. exact (cen_median p M lo hi Hs HM). Qed.
Print Assumptions C82_mean_relation_is_the_median.

Example C82_case : 0 < ca_g1 ex_cac /\ 0 < ca_g2 ex_cac /\ 0 < ca_sigma ex_cac /\ ca_g1 ex_cac <> ca_g2 ex_cac /\
  mean_obs_c ex_cac 1 < mean_obs_c ex_cac 16.
Proof.
  assert (H : 0 < ca_g1 ex_cac /\ 0 < ca_g2 ex_cac) by (simpl; lra). destruct H as [H1 H2].
  split; [exact H1|]. split; [exact H2|]. split; [simpl; lra|]. split; [simpl; lra|].
  apply C82_mean_observable_increases; try assumption; lra.
Qed.
