(** C09, C16-C25: power spectra.  Vocabulary: PkSpec. *)
From Coquelicot Require Import Coquelicot.
From Verif Require Import Base Spec Quad Interp HodModel HodSpec Dewiggle PkModel PkSpec HodExample
  PkFacts PkFacts2 PkFacts3 PkFacts4 PkFacts5 PkFacts6 PkFacts7 PkFacts8 PkExample.
Open Scope R_scope.

(** C09 *)
Theorem C09_mean_halo_mass_bounded : forall S b z,
  valid_z (hctx S) -> valid_mass (hctx S) -> valid_hmf (hctx S) ->
  (b < zbins (s_hod_set S))%nat -> in_range (hctx S) b z -> valid_hod (hctx S) (s_hod S) b ->
  0 < n_gal S b z -> 0 <= mass_avg S b z <= s_mass S (s_nm S - 1).
Proof. exact mass_avg_range. Qed.
Print Assumptions C09_mean_halo_mass_bounded.

Theorem C09_mean_halo_mass_value : forall S b j z Nc Ns n,
  valid_z (hctx S) -> valid_mass (hctx S) -> (3 <= s_nm S)%nat ->
  sampled (hctx S) (s_hod S) b j z Nc Ns n -> number_density_cen (hctx S) (s_hod S) b z <> 0 ->
  is_parabola (fun M => Nc M * n M * M) -> is_parabola (fun M => Ns M * n M * M) ->
  is_parabola (fun M => Nc M * n M) -> is_parabola (fun M => Ns M * n M) ->
  mass_avg S b z = f_c (hctx S) (s_hod S) b z
                   * (mass_int S (fun M => M * (Nc M * n M)) / mass_int S (fun M => Nc M * n M)).
Proof. exact mass_avg_value. Qed.
Print Assumptions C09_mean_halo_mass_value.

Theorem C09_below_the_mass_grid_refuted : exists S b z,
  valid_z (hctx S) /\ valid_mass (hctx S) /\ valid_hmf (hctx S) /\ valid_hod (hctx S) (s_hod S) b /\
  in_range (hctx S) b z /\ mass_avg S b z < s_mass S 0%nat.
Proof.
  exists ex_S, 0%nat, 1%nat. rewrite ex_mass_avg. split; [exact ex_valid_z|]. split; [exact ex_valid_mass|].
  split; [exact ex_valid_hmf|]. split; [apply ex_valid_hod|]. split; [apply ex_in_range|]. simpl. lra.
Qed.
Print Assumptions C09_below_the_mass_grid_refuted.

Example C09_case : valid_z (hctx ex_S) /\ valid_mass (hctx ex_S) /\ valid_hmf (hctx ex_S) /\
  in_range (hctx ex_S) 0 1 /\ valid_hod (hctx ex_S) (s_hod ex_S) 0 /\ 0 < n_gal ex_S 0 1 /\
  sampled (hctx ex_S) (s_hod ex_S) 0 1 1 (fun _ => 1) (fun M => M) (fun _ => 1) /\
  mass_avg ex_S 0 1 = 255 / 285.
Proof.
  split; [exact ex_valid_z|]. split; [exact ex_valid_mass|]. split; [exact ex_valid_hmf|].
  split; [apply ex_in_range|]. split; [apply ex_valid_hod|].
  split; [unfold n_gal; rewrite ex_hctx; destruct ex_densities as (_ & _ & E); change (s_hod ex_S) with ex_simple;
          rewrite E; lra|].
  split; [exact ex_sampled|exact ex_mass_avg].
Qed.

(** C16 *)
Theorem C16_galaxy_and_alignment_totals_add_up : forall x S r, power_spectrum x S = Ok r -> adds_up r.
Proof. exact five_add. Qed.
Print Assumptions C16_galaxy_and_alignment_totals_add_up.

Theorem C16_matter_total_adds_up : forall S r, s_mode S <> Hmcode -> s_response S = false ->
  power_spectrum_mm S = Ok r -> adds_up r.
Proof. exact mm_adds. Qed.
Print Assumptions C16_matter_total_adds_up.

Example C16_case : (exists r, power_spectrum_mm ex_S = Ok r) /\ (exists r, power_spectrum_mm (with_mode Bnl ex_S) = Ok r) /\
  (forall x, exists r, power_spectrum x ex_S = Ok r) /\ (forall x, exists r, power_spectrum x (with_mode Bnl ex_S) = Ok r) /\
  (forall x, exists r, power_spectrum x (with_mode Fortuna ex_S) = Ok r) /\
  (forall x, exists r, power_spectrum x (with_response true ex_S) = Ok r).
Proof.
  split; [apply ex_ok|]. split; [apply ex_ok_bnl|]. split; [apply ex_ok|]. split; [apply ex_ok_bnl|].
  split; [apply ex_ok_fortuna|apply ex_ok_response].
Qed.

(** C17 *)
Theorem C17_clustering_is_bias_squared : forall S r, s_mode S <> Bnl -> s_response S = false ->
  power_spectrum_gg S = Ok r ->
  exists pl beta, pk_lin S = Ok pl /\ pk_bias r = Some beta /\
    forall b z k, 0 <= beta b z k /\
      pk_2h r b z k = (beta b z k) ^ 2 * pl z k * trunc2 (s_k2 S) (s_kvec S k).
Proof.
  intros S r Hm Hr H. destruct (gg_bias_squared S r) as (pl & beta & _ & E & F); try assumption.
  - destruct (s_mode S); congruence || reflexivity.
  - exists pl, beta. exact (conj E F).
Qed.
Print Assumptions C17_clustering_is_bias_squared.

Theorem C17_bias_is_the_hod_bias : forall S r b j z k, valid_z (hctx S) -> valid_mass (hctx S) ->
  (b < zbins (s_hod_set S))%nat -> (j < nz (s_hod_set S))%nat -> (z < s_nz S)%nat ->
  s_zvec S z = hod_z (s_hod_set S) b j -> galaxies_exist S b z ->
  (forall m, (m < s_nm S)%nat -> u_sat S z k m = 1) -> power_spectrum_gg S = Ok r ->
  exists beta, pk_bias r = Some beta /\ beta b z k = Rabs (galaxy_linear_bias (hctx S) (s_hod S) b z).
Proof. exact gg_bias_is_hod_bias. Qed.
Print Assumptions C17_bias_is_the_hod_bias.

Example C17_case : s_mode ex_S <> Bnl /\ (exists r, power_spectrum_gg ex_S = Ok r) /\ galaxies_exist ex_S 0 1 /\
  s_zvec ex_S 1 = hod_z (s_hod_set ex_S) 0 1 /\ forall m, (m < s_nm ex_S)%nat -> u_sat ex_S 1 0 m = 1.
Proof.
  split; [discriminate|]. split; [exact (proj2 ex_ok GG)|]. split; [exact ex_galaxies|].
  split; [apply ex_sampled|]. intros m _. destruct (ex_u 0 m) as [_ ->]. simpl. lra.
Qed.

(** C18 *)
Theorem C18_two_halo_terms_consistent : forall S rgg rgm rmm, plain_mode (s_mode S) -> s_response S = false ->
  power_spectrum_gg S = Ok rgg -> power_spectrum_gm S = Ok rgm -> power_spectrum_mm S = Ok rmm ->
  forall b z k, (pk_2h rgm b z k) ^ 2 = pk_2h rgg b z k * pk_2h rmm b z k.
Proof. exact two_halo_consistent. Qed.
Print Assumptions C18_two_halo_terms_consistent.

Example C18_case : plain_mode (s_mode ex_S) /\ (exists r, power_spectrum_gg ex_S = Ok r) /\
  (exists r, power_spectrum_gm ex_S = Ok r) /\ (exists r, power_spectrum_mm ex_S = Ok r).
Proof. split; [left; reflexivity|]. split; [exact (proj2 ex_ok GG)|]. split; [exact (proj2 ex_ok GM)|apply ex_ok]. Qed.

(** C19 *)
Theorem C19_large_scales_are_linear : forall S r z k, plain_mode (s_mode S) -> s_response S = false ->
  (1 <= s_nm S)%nat -> large_scale S z k -> power_spectrum_mm S = Ok r ->
  exists pl, pk_lin S = Ok pl /\ forall b, pk_2h r b z k = pl z k * trunc2 (s_k2 S) (s_kvec S k).
Proof. exact mm_large_scale. Qed.
Print Assumptions C19_large_scales_are_linear.

Theorem C19_first_wavenumber_is_linear : forall S r z, plain_mode (s_mode S) -> s_response S = false ->
  (1 <= s_nm S)%nat -> (forall m, (m < s_nm S)%nat -> s_nfw_cen S z 0 m <> 0) -> power_spectrum_mm S = Ok r ->
  exists pl, pk_lin S = Ok pl /\
    forall b, pk_2h r b z 0%nat = pl z 0%nat * trunc2 (s_k2 S) (s_kvec S 0%nat).
Proof. exact mm_first_k. Qed.
Print Assumptions C19_first_wavenumber_is_linear.

Example C19_case : plain_mode (s_mode ex_S) /\ large_scale ex_S 1 0 /\ (exists r, power_spectrum_mm ex_S = Ok r) /\
  (forall m, (m < s_nm ex_S)%nat -> s_nfw_cen ex_S 1 0 m <> 0) /\
  simpson (s_nm ex_S) (fun m => s_bias ex_S 1 m * s_dndlnm ex_S 1 m * (1 / s_rho ex_S 1)) (s_mass ex_S) = 14925 / 20000.
Proof.
  split; [left; reflexivity|]. split; [exact ex_large|]. split; [apply ex_ok|].
  split; [intros m _; simpl; lra|]. pose proof ex_A as H. unfold A_term in H. lra.
Qed.

(** C20 *)
Theorem C20_central_matter_alignment : forall S r pl b z k, positive_background S -> s_mode S = NoNl ->
  s_response S = false -> large_scale S z k -> pk_lin S = Ok pl ->
  power_spectrum_mi (only_centrals S) = Ok r ->
  pk_2h r b z k = - (pl z k * nla S b z * trunc2_ia (s_k2_ia S) (s_kvec S k)).
Proof. exact nla_mi. Qed.
Print Assumptions C20_central_matter_alignment.

Theorem C20_central_alignment_autopower : forall S r pl b z k, positive_background S -> s_mode S = NoNl ->
  s_response S = false -> pk_lin S = Ok pl -> power_spectrum_ii (only_centrals S) = Ok r ->
  pk_2h r b z k = pl z k * (nla S b z) ^ 2 * trunc2_ia (s_k2_ia S) (s_kvec S k).
Proof. exact nla_ii. Qed.
Print Assumptions C20_central_alignment_autopower.

Theorem C20_default_and_fortuna_agree : forall S r r' b z k, positive_background S -> s_response S = false ->
  no_mass_scaling S -> large_scale S z k -> (forall m, (m < s_nm S)%nat -> s_wkm S z k m = 0) ->
  power_spectrum_mi (with_mode NoNl S) = Ok r -> power_spectrum_mi (with_t_eff 1 (with_mode Fortuna S)) = Ok r' ->
  pk_2h r b z k = pk_2h r' b z k.
Proof. exact mi_modes_agree. Qed.
Print Assumptions C20_default_and_fortuna_agree.

Example C20_case : positive_background ex_S /\ large_scale ex_S 1 0 /\ (exists pl, pk_lin ex_S = Ok pl) /\
  (exists r, power_spectrum_mi (only_centrals ex_S) = Ok r) /\ (exists r, power_spectrum_ii (only_centrals ex_S) = Ok r) /\
  nla ex_S 0 1 <> 0 /\ no_mass_scaling (only_centrals ex_S) /\
  (exists r, power_spectrum_mi (with_t_eff 1 (with_mode Fortuna (only_centrals ex_S))) = Ok r).
Proof.
  split; [exact ex_background|]. split; [exact ex_large|]. repeat (split; [eexists; reflexivity|]).
  split; [rewrite <- (Ic_nla ex_S 0 1 0 ex_background), ex_Ic_align; lra|].
  split; [split; left; reflexivity|eexists; reflexivity].
Qed.

(** C21 *)
Theorem C21_alignment_spectra_scale : forall a S,
  (forall r, power_spectrum_mi S = Ok r ->
     exists r', power_spectrum_mi (with_amplitude a S) = Ok r' /\ multiple_of a r r') /\
  (forall r, power_spectrum_gi S = Ok r ->
     exists r', power_spectrum_gi (with_amplitude a S) = Ok r' /\ multiple_of a r r') /\
  (forall r, power_spectrum_ii S = Ok r ->
     exists r', power_spectrum_ii (with_amplitude a S) = Ok r' /\ multiple_of (a ^ 2) r r').
Proof. exact (fun a S => conj (fun r => mi_scal a S r) (conj (fun r => gi_scal a S r) (fun r => ii_scal a S r))). Qed.
Print Assumptions C21_alignment_spectra_scale.

Theorem C21_zero_amplitude_vanishes : forall x S r, is_alignment x = true ->
  power_spectrum x (with_amplitude 0 S) = Ok r ->
  forall b z k, pk_1h r b z k = 0 /\ pk_2h r b z k = 0 /\ pk_tot r b z k = 0.
Proof. exact zero_amplitude. Qed.
Print Assumptions C21_zero_amplitude_vanishes.

Theorem C21_other_spectra_unaffected : forall a S, power_spectrum_mm (with_amplitude a S) = power_spectrum_mm S /\
  power_spectrum_gg (with_amplitude a S) = power_spectrum_gg S /\
  power_spectrum_gm (with_amplitude a S) = power_spectrum_gm S.
Proof. exact amplitude_inert. Qed.
Print Assumptions C21_other_spectra_unaffected.

Example C21_case : (exists r, power_spectrum_mi ex_S = Ok r) /\ (exists r, power_spectrum_gi ex_S = Ok r) /\
  (exists r, power_spectrum_ii ex_S = Ok r) /\ (exists r, power_spectrum_ii (with_amplitude 0 ex_S) = Ok r) /\
  Is_align ex_S 0 1 0 <> 0.
Proof.
  split; [exact (proj2 ex_ok MI)|]. split; [exact (proj2 ex_ok GI)|]. split; [exact (proj2 ex_ok II)|].
  split; [eexists; reflexivity|]. rewrite ex_Is_align. lra.
Qed.

(** C22 *)
Theorem C22_central_satellite_cross_term : forall S r rc rs b z k, s_mode S = NoNl \/ s_mode S = Hmcode ->
  s_response S = false ->
  power_spectrum_ii S = Ok r -> power_spectrum_ii (only_centrals S) = Ok rc ->
  power_spectrum_ii (only_satellites S) = Ok rs ->
  (pk_2h r b z k - (pk_2h rc b z k + pk_2h rs b z k)) ^ 2 = pk_2h rc b z k * pk_2h rs b z k.
Proof. exact ii_cross. Qed.
Print Assumptions C22_central_satellite_cross_term.

Theorem C22_cross_spectra_are_sums : forall S b z k, s_mode S = NoNl \/ s_mode S = Hmcode ->
  s_response S = false ->
  (forall r rc rs, power_spectrum_mi S = Ok r -> power_spectrum_mi (only_centrals S) = Ok rc ->
     power_spectrum_mi (only_satellites S) = Ok rs -> pk_2h r b z k = pk_2h rc b z k + pk_2h rs b z k) /\
  (forall r rc rs, power_spectrum_gi S = Ok r -> power_spectrum_gi (only_centrals S) = Ok rc ->
     power_spectrum_gi (only_satellites S) = Ok rs -> pk_2h r b z k = pk_2h rc b z k + pk_2h rs b z k).
Proof.
  exact (fun S b z k Hm Hr => conj (fun r rc rs => mi_split S r rc rs b z k Hm Hr)
                                   (fun r rc rs => gi_split S r rc rs b z k Hm Hr)).
Qed.
Print Assumptions C22_cross_spectra_are_sums.

Theorem C22_square_of_summed_fields_refuted : exists S r rc rs b z k,
  s_mode S = NoNl /\ s_response S = false /\
  power_spectrum_ii S = Ok r /\ power_spectrum_ii (only_centrals S) = Ok rc /\
  power_spectrum_ii (only_satellites S) = Ok rs /\
  0 < pk_2h rc b z k /\ 0 < pk_2h rs b z k /\
  (pk_2h r b z k - (pk_2h rc b z k + pk_2h rs b z k)) ^ 2 <> 4 * (pk_2h rc b z k * pk_2h rs b z k).
Proof.
  destruct (proj2 ex_ok II) as [r Hr].
  assert (Hc : exists rc, power_spectrum_ii (only_centrals ex_S) = Ok rc) by (eexists; reflexivity).
  assert (Hs : exists rs, power_spectrum_ii (only_satellites ex_S) = Ok rs) by (eexists; reflexivity).
  destruct Hc as [rc Hc], Hs as [rs Hs]. exists ex_S, r, rc, rs, 0%nat, 1%nat, 0%nat.
  repeat (split; [first [reflexivity|assumption]|]).
  rewrite (ii_cross ex_S r rc rs 0 1 0 (or_introl eq_refl) eq_refl Hr Hc Hs).
  destruct (ii_form (only_centrals ex_S) rc (or_introl eq_refl) eq_refl Hc) as (plc & Ec & Fc & _).
  destruct (ii_form (only_satellites ex_S) rs (or_introl eq_refl) eq_refl Hs) as (pls & Es & Fs & _).
  injection Ec as <-. injection Es as <-. rewrite Fc, Fs. clear Fc Fs.
  rewrite Is_only_centrals, Ic_only_satellites, Ic_only_centrals, Is_only_satellites, ex_Is_align, ex_Ic_align.
  change (t2i (only_centrals ex_S) 0) with (exp (- (2 ^ 0 / 6) ^ 2)).
  change (t2i (only_satellites ex_S) 0) with (exp (- (2 ^ 0 / 6) ^ 2)).
  pose proof (exp_pos (- (2 ^ 0 / 6) ^ 2)) as He. set (e := exp _) in *.
  change (a_val (raw_plin (only_centrals ex_S)) 1 0) with (1 + INR 0).
  change (a_val (raw_plin (only_satellites ex_S)) 1 0) with (1 + INR 0).
  change (INR 0) with 0. clearbody e.
  match goal with |- 0 < ?x /\ 0 < ?y /\ _ => assert (0 < x) by lra; assert (0 < y) by lra end.
  split; [assumption|]. split; [assumption|].
  match goal with |- ?x * ?y <> _ => assert (0 < x * y) by (apply Rmult_lt_0_compat; assumption) end. lra.
Qed.
Print Assumptions C22_square_of_summed_fields_refuted.

Example C22_case : (s_mode ex_S = NoNl \/ s_mode ex_S = Hmcode) /\ (exists r, power_spectrum_ii ex_S = Ok r) /\
  (exists r, power_spectrum_ii (only_centrals ex_S) = Ok r) /\
  (exists r, power_spectrum_mi (only_satellites ex_S) = Ok r) /\ (exists r, power_spectrum_gi (only_satellites ex_S) = Ok r).
Proof. split; [left; reflexivity|]. repeat split; eexists; reflexivity. Qed.

(** C23 *)
Theorem C23_signs_in_default_mode : forall S b z, nonneg_ingredients S -> nonneg_galaxies S b z ->
  forall rmi rii rgi pl k, s_mode S = NoNl -> s_response S = false -> bias_budget S z ->
  no_feedback S \/ physical_baryons S b z -> pk_lin S = Ok pl -> 0 <= pl z k ->
  power_spectrum_mi S = Ok rmi -> power_spectrum_ii S = Ok rii -> power_spectrum_gi S = Ok rgi ->
  (pk_1h rmi b z k <= 0 /\ pk_2h rmi b z k <= 0 /\ pk_tot rmi b z k <= 0) /\
  (0 <= pk_1h rii b z k /\ 0 <= pk_2h rii b z k /\ 0 <= pk_tot rii b z k) /\
  (0 <= pk_1h rgi b z k /\ 0 <= pk_2h rgi b z k /\ 0 <= pk_tot rgi b z k).
Proof. exact signs_default. Qed.
Print Assumptions C23_signs_in_default_mode.

Theorem C23_signs_in_fortuna_mode : forall S b z, nonneg_ingredients S -> nonneg_galaxies S b z ->
  forall rmi rii rgi pl pn k, s_mode S = Fortuna -> s_response S = false ->
  no_feedback S \/ physical_baryons S b z -> 0 <= s_t_eff S <= 1 ->
  pk_lin S = Ok pl -> pk_nl S = Ok (Some pn) -> 0 <= pl z k -> 0 <= pn z k ->
  power_spectrum_mi S = Ok rmi -> power_spectrum_ii S = Ok rii -> power_spectrum_gi S = Ok rgi ->
  (pk_1h rmi b z k <= 0 /\ pk_2h rmi b z k <= 0 /\ pk_tot rmi b z k <= 0) /\
  (0 <= pk_1h rii b z k /\ 0 <= pk_2h rii b z k /\ 0 <= pk_tot rii b z k) /\
  (0 <= pk_1h rgi b z k /\ 0 <= pk_2h rgi b z k /\ 0 <= pk_tot rgi b z k).
Proof. exact signs_fortuna. Qed.
Print Assumptions C23_signs_in_fortuna_mode.

Theorem C23_physical_samples_qualify : forall S b z, valid_z (hctx S) -> valid_mass (hctx S) -> valid_hmf (hctx S) ->
  valid_hod (hctx S) (s_hod S) b -> populated (hctx S) (s_hod S) b ->
  (b < zbins (s_hod_set S))%nat -> in_range (hctx S) b z -> nonneg_galaxies S b z.
Proof. exact physical_galaxies. Qed.
Print Assumptions C23_physical_samples_qualify.

Theorem C23_same_sign_refuted : exists S rmi rgi b z k, nonneg_ingredients S /\ nonneg_galaxies S b z /\
  s_mode S = NoNl /\ power_spectrum_mi S = Ok rmi /\ power_spectrum_gi S = Ok rgi /\
  pk_2h rmi b z k < 0 /\ 0 < pk_2h rgi b z k.
Proof.
  exists ex_S. do 2 eexists. exists 0%nat, 1%nat, 0%nat.
  split; [exact ex_nonneg|]. split; [exact ex_nonneg_galaxies|]. split; [reflexivity|].
  split; [reflexivity|]. split; [reflexivity|]. cbn [pk_2h].
  rewrite ex_Is_align, ex_Ic_align, ex_Ic_term, (Im_unit ex_S 1 0) by (try exact ex_large; simpl; lia).
  change (t2i ex_S 0) with (exp (- (2 ^ 0 / 6) ^ 2)).
  pose proof (exp_pos (- (2 ^ 0 / 6) ^ 2)) as He. set (e := exp _) in *.
  change (a_val (raw_plin ex_S) 1 0) with (1 + INR 0). change (INR 0) with 0. clearbody e. lra.
Qed.
Print Assumptions C23_same_sign_refuted.

Example C23_case : nonneg_ingredients ex_S /\ nonneg_galaxies ex_S 0 1 /\ bias_budget ex_S 1 /\ no_feedback ex_S /\
  (exists pl, pk_lin ex_S = Ok pl /\ 0 <= pl 1%nat 1%nat) /\
  (exists pn, pk_nl (with_mode Fortuna ex_S) = Ok (Some pn) /\ 0 <= pn 1%nat 1%nat) /\ 0 <= s_t_eff ex_S <= 1 /\
  populated (hctx ex_S) (s_hod ex_S) 0.
Proof.
  split; [exact ex_nonneg|]. split; [exact ex_nonneg_galaxies|]. split; [exact ex_budget|]. split; [exact ex_no_feedback|].
  split; [eexists; split; [reflexivity|simpl; lra]|]. split; [eexists; split; [reflexivity|simpl; lra]|].
  split; [simpl; lra|exact ex_populated].
Qed.

(** C24 *)
Theorem C24_matter_is_the_nonlinear_power : forall S r, s_response S = true -> power_spectrum_mm S = Ok r ->
  exists pn, pk_nl S = Ok (Some pn) /\ forall b z k,
    pk_1h r b z k = 0 /\ pk_2h r b z k = 0 /\ pk_tot r b z k = pn z k.
Proof. exact mm_response. Qed.
Print Assumptions C24_matter_is_the_nonlinear_power.

Theorem C24_common_rescaling : forall x S r, power_spectrum x (with_response true S) = Ok r ->
  exists r0 mm nl, power_spectrum x (with_response false S) = Ok r0 /\
    power_spectrum_mm (with_response false S) = Ok mm /\ power_spectrum_mm (with_response true S) = Ok nl /\
    pk_bias r = pk_bias r0 /\
    forall b z k, pk_1h r b z k = pk_1h r0 b z k * (pk_tot nl b z k / pk_tot mm b z k) /\
                  pk_2h r b z k = pk_2h r0 b z k * (pk_tot nl b z k / pk_tot mm b z k) /\
                  pk_tot r b z k = pk_tot r0 b z k * (pk_tot nl b z k / pk_tot mm b z k).
Proof. exact response_scaled. Qed.
Print Assumptions C24_common_rescaling.

Example C24_case : (exists r, power_spectrum_mm (with_response true ex_S) = Ok r) /\
  forall x, exists r, power_spectrum x (with_response true ex_S) = Ok r.
Proof. exact ex_ok_response. Qed.

(** C25 *)
Theorem C25_correction_is_bilinear : forall S U V W B x y iu iv i ju jv j b z k,
  I_NL S U W B = Ok iu -> I_NL S V W B = Ok iv ->
  I_NL S (fun b z k m => x * U b z k m + y * V b z k m) W B = Ok i ->
  I_NL S W U B = Ok ju -> I_NL S W V B = Ok jv ->
  I_NL S W (fun b z k m => x * U b z k m + y * V b z k m) B = Ok j ->
  i b z k = x * iu b z k + y * iv b z k /\ j b z k = x * ju b z k + y * jv b z k.
Proof. exact I_NL_bilinear. Qed.
Print Assumptions C25_correction_is_bilinear.

Theorem C25_correction_is_symmetric : forall S W1 W2 B i i' b z k,
  (forall z k m1 m2, B z k m1 m2 = B z k m2 m1) ->
  I_NL S W1 W2 B = Ok i -> I_NL S W2 W1 B = Ok i' -> i b z k = i' b z k.
Proof. exact I_NL_symmetric. Qed.
Print Assumptions C25_correction_is_symmetric.

Theorem C25_constant_correction : forall S W1 W2 B i c b z k, (forall z k m1 m2, B z k m1 m2 = c) ->
  I_NL S W1 W2 B = Ok i -> i b z k = c * trap_field S W1 b z k * trap_field S W2 b z k.
Proof. exact I_NL_constant. Qed.
Print Assumptions C25_constant_correction.

Theorem C25_zero_table_is_the_default_mode : forall S, s_response S = false ->
  (forall r, power_spectrum_mm (bnl_zero S) = Ok r ->
     exists r', power_spectrum_mm (untruncated_2h S) = Ok r' /\ same_power r r') /\
  (forall x r, power_spectrum x (bnl_zero S) = Ok r ->
     exists r', power_spectrum x (untruncated_2h S) = Ok r' /\ same_power r r').
Proof. exact (fun S Hr => conj (fun r => zero_beta_mm S r Hr) (fun x r => zero_beta_five x S r Hr)). Qed.
Print Assumptions C25_zero_table_is_the_default_mode.

Theorem C25_where_the_correction_enters : forall S, s_mode S = Bnl -> s_response S = false ->
  (forall r, power_spectrum_mm S = Ok r ->
    exists pl B i, pk_lin S = Ok pl /\ beta_nl S = Ok B /\ I_NL S (matter_profile S) (matter_profile S) B = Ok i /\
    forall b z k, pk_2h r b z k = pl z k * ((Im_term S z k) ^ 2 + i b z k)) /\
  (forall r, power_spectrum_gg S = Ok r ->
    exists pl B i, pk_lin S = Ok pl /\ beta_nl S = Ok B /\ I_NL S (gal_profile S) (gal_profile S) B = Ok i /\
    forall b z k, pk_2h r b z k = pl z k * ((Ic_term S b z k + Is_term S b z k) ^ 2 + i b z k)) /\
  (forall r, power_spectrum_gm S = Ok r ->
    exists pl B i, pk_lin S = Ok pl /\ beta_nl S = Ok B /\ I_NL S (gal_profile S) (matter_profile S) B = Ok i /\
    forall b z k, pk_2h r b z k = pl z k * ((Ic_term S b z k + Is_term S b z k) * Im_term S z k + i b z k)) /\
  (forall r, power_spectrum_mi S = Ok r ->
    exists pl B i, pk_lin S = Ok pl /\ beta_nl S = Ok B /\ I_NL S (gal_align S) (matter_profile S) B = Ok i /\
    forall b z k, pk_2h r b z k
      = - (pl z k * ((Ic_align S b z k + Is_align S b z k) * Im_term S z k + i b z k))).
Proof.
  exact (fun S Hm Hr => conj (fun r => mm_bnl S r Hm Hr) (conj (fun r => gg_bnl S r Hm Hr)
    (conj (fun r => gm_bnl S r Hm Hr) (fun r => mi_bnl S r Hm Hr)))).
Qed.
Print Assumptions C25_where_the_correction_enters.

Theorem C25_where_the_correction_enters_alignment : forall S, s_mode S = Bnl -> s_response S = false ->
  (forall r, power_spectrum_ii S = Ok r ->
    exists pl B is ic ics, pk_lin S = Ok pl /\ beta_nl S = Ok B /\
    I_NL S (sat_align S) (sat_align S) B = Ok is /\ I_NL S (cen_align S) (cen_align S) B = Ok ic /\
    I_NL S (cen_align S) (sat_align S) B = Ok ics /\
    forall b z k, pk_2h r b z k
      = pl z k * ((Ic_align S b z k) ^ 2 + ic b z k + ((Is_align S b z k) ^ 2 + is b z k)
                  + (Ic_align S b z k * Is_align S b z k + ics b z k))) /\
  (forall r, power_spectrum_gi S = Ok r ->
    exists pl B ic ics, pk_lin S = Ok pl /\ beta_nl S = Ok B /\
    I_NL S (cen_align S) (cen_profile S) B = Ok ic /\ I_NL S (sat_align S) (cen_profile S) B = Ok ics /\
    forall b z k, pk_2h r b z k
      = pl z k * (Ic_term S b z k * (Ic_align S b z k + Is_align S b z k) + (ic b z k + ics b z k))).
Proof. exact (fun S Hm Hr => conj (fun r => ii_bnl S r Hm Hr) (fun r => gi_bnl S r Hm Hr)). Qed.
Print Assumptions C25_where_the_correction_enters_alignment.

Example C25_case : (exists r, power_spectrum_mm (with_mode Bnl ex_S) = Ok r) /\
  (forall x, exists r, power_spectrum x (with_mode Bnl ex_S) = Ok r) /\
  (exists r, power_spectrum_mm (bnl_zero ex_S) = Ok r) /\ (forall x, exists r, power_spectrum x (bnl_zero ex_S) = Ok r) /\
  exists i, I_NL ex_S (gal_profile ex_S) (matter_profile ex_S) (fun _ _ m1 m2 => INR (m1 * m2)) = Ok i.
Proof.
  split; [apply ex_ok_bnl|]. split; [apply ex_ok_bnl|]. split; [eexists; reflexivity|].
  split; [intros x; destruct x; eexists; reflexivity|eexists; reflexivity].
Qed.
