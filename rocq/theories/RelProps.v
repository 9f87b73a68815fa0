(** Relational properties: spectra of two requests that differ in one respect (C85-C90). *)
From Coquelicot Require Import Coquelicot.
From Verif Require Import Base Spec Quad Interp HodModel HodSpec Dewiggle PkModel PkSpec BaseFacts QuadFacts
  InterpFacts HodFacts HodFacts2 HodExample PkFacts PkExample RelSpec RelFacts RelFacts2 RelFacts3 RelFacts4 RelFacts5.
Open Scope R_scope.

(** C85 *)
Theorem C85_matter_power_ignores_galaxies : forall g S, stars_in_matter (s_ingr S) (s_hod S) = false ->
  stars_in_matter (s_ingr S) (g_hod g) = false ->
  power_spectrum_mm (with_galaxies g S) = power_spectrum_mm S.
Proof. exact mm_galaxies. Qed.
Print Assumptions C85_matter_power_ignores_galaxies.

Theorem C85_alignment_changes_only_alignment_spectra : forall g S,
  power_spectrum_gg (with_alignment g S) = power_spectrum_gg S /\
  power_spectrum_gm (with_alignment g S) = power_spectrum_gm S /\
  power_spectrum_mm (with_alignment g S) = power_spectrum_mm S.
Proof. exact gg_alignment. Qed.
Print Assumptions C85_alignment_changes_only_alignment_spectra.

Theorem C85_independence_refuted : exists g g' S r r', s_ingr S = Fit /\
  power_spectrum_mm (with_galaxies g S) = Ok r /\ power_spectrum_mm (with_galaxies g' S) = Ok r' /\
  pk_1h r 0%nat 1%nat 1%nat < pk_1h r' 0%nat 1%nat 1%nat.
Proof. exact mm_galaxies_refuted. Qed.
Print Assumptions C85_independence_refuted.

Example C85_case : exists r, power_spectrum_mm (with_galaxies (ex_gal (Cacciato ex_cac)) ex_S) = Ok r /\
  power_spectrum_mm ex_S = Ok r.
Proof. exact ex_C85. Qed.

(** C86 *)
Theorem C86_spectra_scale_as_volumes : forall L S, 0 < L -> scale_free S -> forall x r, power_spectrum x S = Ok r ->
  exists r', power_spectrum x (in_units L S) = Ok r' /\ multiple_of (L ^ 3) r r'.
Proof. exact un_five. Qed.
Print Assumptions C86_spectra_scale_as_volumes.

Theorem C86_matter_spectrum_scales_as_volume : forall L S, 0 < L -> scale_free S -> forall r, power_spectrum_mm S = Ok r ->
  exists r', power_spectrum_mm (in_units L S) = Ok r' /\ multiple_of (L ^ 3) r r'.
Proof. exact un_mm_full. Qed.
Print Assumptions C86_matter_spectrum_scales_as_volume.

Example C86_case : scale_free (with_k2 None ex_S) /\
  exists r r', power_spectrum_mm (with_k2 None ex_S) = Ok r /\ power_spectrum_mm (in_units 2 (with_k2 None ex_S)) = Ok r' /\
  pk_1h r' 0%nat 1%nat 1%nat = 8 * pk_1h r 0%nat 1%nat 1%nat /\ 0 < pk_1h r 0%nat 1%nat 1%nat.
Proof. exact ex_C86. Qed.

(** C87 *)
Theorem C87_galaxy_power_under_abundance : forall a S, a <> 0 -> forall r, s_mode S <> Bnl -> s_response S = false ->
  power_spectrum_gg S = Ok r -> exists r', power_spectrum_gg (with_abundance a S) = Ok r' /\ pk_bias r' = pk_bias r /\
  forall b z k, pk_1h r' b z k = pk_1h r b z k / a /\ pk_2h r' b z k = pk_2h r b z k.
Proof. exact ab_gg. Qed.
Print Assumptions C87_galaxy_power_under_abundance.

Theorem C87_cross_power_under_abundance : forall a S, a <> 0 -> forall r, s_response S = false ->
  power_spectrum_gm S = Ok r -> exists r', power_spectrum_gm (with_abundance a S) = Ok r' /\
  forall b z k, pk_1h r' b z k = pk_1h r b z k.
Proof. exact ab_gm. Qed.
Print Assumptions C87_cross_power_under_abundance.

Theorem C87_alignment_power_under_abundance : forall a S, a <> 0 -> forall r, s_mode S <> Bnl -> s_response S = false ->
  power_spectrum_mi S = Ok r -> exists r', power_spectrum_mi (with_abundance a S) = Ok r' /\
  forall b z k, pk_1h r' b z k = pk_1h r b z k.
Proof. exact ab_mi. Qed.
Print Assumptions C87_alignment_power_under_abundance.

Theorem C87_galaxy_statistics_under_abundance : forall a S b z, a <> 0 ->
  n_gal (with_abundance a S) b z = a * n_gal S b z /\
  f_c (hctx (with_abundance a S)) (s_hod S) b z = f_c (hctx S) (s_hod S) b z /\
  f_s (hctx (with_abundance a S)) (s_hod S) b z = f_s (hctx S) (s_hod S) b z /\
  galaxy_linear_bias (hctx (with_abundance a S)) (s_hod S) b z = galaxy_linear_bias (hctx S) (s_hod S) b z /\
  mass_avg (with_abundance a S) b z = mass_avg S b z.
Proof. exact ab_stats. Qed.
Print Assumptions C87_galaxy_statistics_under_abundance.

Example C87_case : s_mode ex_S <> Bnl /\ s_response ex_S = false /\
  exists r r', power_spectrum_gg ex_S = Ok r /\ power_spectrum_gg (with_abundance 3 ex_S) = Ok r' /\
  (forall b z k, pk_1h r' b z k = pk_1h r b z k / 3) /\ 0 < number_density (hctx ex_S) (s_hod ex_S) 0 1.
Proof. exact ex_C87. Qed.

(** C88 *)
Theorem C88_spectra_do_not_depend_on_other_wavenumbers : forall n s S,
  s_mode S <> Hmcode /\ s_dewiggle S = false -> s 0%nat = 0%nat -> forall x r, power_spectrum x S = Ok r ->
  exists r', power_spectrum x (on_wavenumbers n s S) = Ok r' /\ forall b z i, same_at r' b z i r b z (s i).
Proof. exact wn_five. Qed.
Print Assumptions C88_spectra_do_not_depend_on_other_wavenumbers.

Theorem C88_matter_spectrum_does_not_depend_on_other_wavenumbers : forall n s S,
  s_mode S <> Hmcode /\ s_dewiggle S = false -> s 0%nat = 0%nat -> forall r, power_spectrum_mm S = Ok r ->
  exists r', power_spectrum_mm (on_wavenumbers n s S) = Ok r' /\ forall b z i, same_at r' b z i r b z (s i).
Proof. exact wn_mm. Qed.
Print Assumptions C88_matter_spectrum_does_not_depend_on_other_wavenumbers.

Theorem C88_profile_for_another_first_wavenumber : forall n s S z i m,
  s_nfw_cen S z 0%nat m <> 0 -> s_nfw_cen S z (s 0%nat) m <> 0 ->
  u_dm (on_wavenumbers n s S) z i m = u_dm S z (s i) m / u_dm S z (s 0%nat) m.
Proof. exact wn_profile. Qed.
Print Assumptions C88_profile_for_another_first_wavenumber.

Theorem C88_any_subgrid_refuted : exists n s S r r', s_mode S <> Hmcode /\ s_dewiggle S = false /\
  power_spectrum_mm S = Ok r /\ power_spectrum_mm (on_wavenumbers n s S) = Ok r' /\
  s_kvec (on_wavenumbers n s S) 0%nat = s_kvec S 1%nat /\
  pk_1h r' 0%nat 1%nat 0%nat <> pk_1h r 0%nat 1%nat 1%nat.
Proof. exact wn_refuted. Qed.
Print Assumptions C88_any_subgrid_refuted.

Example C88_case : (s_mode ex_S <> Hmcode /\ s_dewiggle ex_S = false) /\
  exists r r', power_spectrum_mm ex_S = Ok r /\ power_spectrum_mm (on_wavenumbers 2 (fun i => (2 * i)%nat) ex_S) = Ok r' /\
  pk_1h r' 0%nat 1%nat 1%nat = pk_1h r 0%nat 1%nat 2%nat.
Proof. exact ex_C88. Qed.

(** C89 *)
Theorem C89_matter_spectrum_does_not_depend_on_other_redshifts : forall n s S r, power_spectrum_mm S = Ok r ->
  exists r', power_spectrum_mm (on_redshifts n s S) = Ok r' /\ forall b i k, same_at r' b i k r b (s i) k.
Proof. exact rs_mm. Qed.
Print Assumptions C89_matter_spectrum_does_not_depend_on_other_redshifts.

Theorem C89_spectra_given_same_interpolated_mass_function : forall n s S b, (2 <= nz (s_hod_set S))%nat ->
  (forall j m, (j < nz (s_hod_set S))%nat ->
     dndlnm_int (hctx (on_redshifts n s S)) b j m = dndlnm_int (hctx S) b j m) ->
  forall x r, power_spectrum x S = Ok r ->
  exists r', power_spectrum x (on_redshifts n s S) = Ok r' /\ forall i k, same_at r' b i k r b (s i) k.
Proof. exact rs_five. Qed.
Print Assumptions C89_spectra_given_same_interpolated_mass_function.

Theorem C89_spectra_when_hod_redshifts_are_kept : forall n s S b,
  (2 <= nz (s_hod_set S))%nat -> (2 <= n)%nat -> (2 <= s_nz S)%nat ->
  increasing (s_nz S) (s_zvec S) -> increasing n (fun i => s_zvec S (s i)) ->
  (forall i, (i < n)%nat -> (s i < s_nz S)%nat) ->
  (forall j, (j < nz (s_hod_set S))%nat -> exists i, (i < n)%nat /\ s_zvec S (s i) = hod_z (s_hod_set S) b j) ->
  forall x r, power_spectrum x S = Ok r ->
  exists r', power_spectrum x (on_redshifts n s S) = Ok r' /\ forall i k, same_at r' b i k r b (s i) k.
Proof. exact rs_common. Qed.
Print Assumptions C89_spectra_when_hod_redshifts_are_kept.

Theorem C89_galaxies_refuted : exists n s S, increasing (s_nz S) (s_zvec S) /\ (s 1%nat < s_nz S)%nat /\ (1 < n)%nat /\
  number_density_cen (hctx (on_redshifts n s S)) (s_hod S) 0 1 <> number_density_cen (hctx S) (s_hod S) 0 (s 1%nat).
Proof. exact rs_refuted. Qed.
Print Assumptions C89_galaxies_refuted.

Example C89_case : exists r r', power_spectrum_mm ex_S = Ok r /\
  power_spectrum_mm (on_redshifts 1 (fun _ => 1%nat) ex_S) = Ok r' /\
  pk_1h r' 0%nat 0%nat 1%nat = pk_1h r 0%nat 1%nat 1%nat.
Proof. exact ex_C89. Qed.

Example C89_case_kept : increasing (s_nz ex_Q) (s_zvec ex_Q) /\ exists r r', power_spectrum_gg ex_Q = Ok r /\
  power_spectrum_gg (on_redshifts 3 (fun i => (2 * i)%nat) ex_Q) = Ok r' /\
  pk_1h r' 0%nat 1%nat 1%nat = pk_1h r 0%nat 2%nat 1%nat.
Proof. exact ex_C89_kept. Qed.

(** C90 *)
Theorem C90_each_bin_is_computed_alone : forall b S,
  (hs_file (s_hod_set S) = None -> (b < zbins (s_hod_set S))%nat) ->
  (stars_in_matter (s_ingr S) (s_hod S) = true -> hs_file (s_hod_set_mm S) = None ->
     (b < zbins (s_hod_set_mm S))%nat \/ zbins (s_hod_set_mm S) = 1%nat) ->
  forall x r, power_spectrum x S = Ok r ->
  exists r', power_spectrum x (only_bin b S) = Ok r' /\ forall i k, same_at r' 0 i k r b i k.
Proof. exact bi_five. Qed.
Print Assumptions C90_each_bin_is_computed_alone.

Theorem C90_matter_spectrum_of_each_bin : forall b S,
  (stars_in_matter (s_ingr S) (s_hod S) = true -> hs_file (s_hod_set_mm S) = None ->
     (b < zbins (s_hod_set_mm S))%nat \/ zbins (s_hod_set_mm S) = 1%nat) ->
  forall r, power_spectrum_mm S = Ok r ->
  exists r', power_spectrum_mm (only_bin b S) = Ok r' /\ forall i k, same_at r' 0 i k r b i k.
Proof. exact bi_mm. Qed.
Print Assumptions C90_matter_spectrum_of_each_bin.

Example C90_case : (1 < zbins (s_hod_set ex_S))%nat /\ hs_zmax (s_hod_set (only_bin 1 ex_S)) <> hs_zmax (s_hod_set ex_S) /\
  exists r r', power_spectrum_gg ex_S = Ok r /\ power_spectrum_gg (only_bin 1 ex_S) = Ok r' /\
  pk_1h r' 0%nat 1%nat 1%nat = pk_1h r 1%nat 1%nat 1%nat.
Proof. exact ex_C90. Qed.
