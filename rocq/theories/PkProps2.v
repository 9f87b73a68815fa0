(** C26-C31, C33, C60-C62: power spectra, continued.  Vocabulary: PkSpec. *)
From Coquelicot Require Import Coquelicot.
From Verif Require Import Base Spec Quad Interp HodModel HodSpec Dewiggle PkModel PkSpec HodExample
  PkFacts PkFacts2 PkFacts3 PkFacts4 PkFacts5 PkFacts6 PkFacts7 PkFacts8 PkExample PkFacts9 DampFacts.
Open Scope R_scope.

(** C26 *)
Theorem C26_hmcode_total : forall S r b z k, s_mode S = Hmcode -> s_response S = false ->
  power_spectrum_mm S = Ok r -> 0 < s_kvec S k -> 0 < pk_1h r b z k -> 0 < pk_2h r b z k ->
  let alpha := 1875 / 1000 * Rpower (1603 / 1000) (s_neff S z) in
  let p1 := pk_1h r b z k in let p2 := pk_2h r b z k in let p := pk_tot r b z k in
  Rpower p alpha = Rpower p1 alpha + Rpower p2 alpha /\
  Rmax p1 p2 <= p /\ (1 <= alpha -> p <= p1 + p2) /\ (alpha <= 1 -> p1 + p2 <= p).
Proof. exact mm_hmcode_total. Qed.
Print Assumptions C26_hmcode_total.

Theorem C26_hmcode_terms : forall S r, s_mode S = Hmcode -> s_response S = false -> power_spectrum_mm S = Ok r ->
  (s_ingr S = Mead2020Fb \/ s_ingr S = Mead2020) /\
  exists pl, pk_lin S = Ok pl /\ forall b z k,
    pk_2h r b z k = pl z k * trunc2_mead (s_sigma8z S z) (s_kvec S k) /\
    pk_1h r b z k = one_halo S (profile_mm S) (profile_mm S) b z k * trunc1_mead (s_sigma8z S z) (s_kvec S k) /\
    pk_tot r b z k = transition (s_neff S z) (s_kvec S k) (pk_1h r b z k) (pk_2h r b z k).
Proof. exact mm_hmcode. Qed.
Print Assumptions C26_hmcode_terms.

Theorem C26_transition_properties : forall neff k p1 p2 c, 0 < k -> 0 < p1 -> 0 < p2 -> 0 < c ->
  transition neff k p1 p2 = transition neff k p2 p1 /\
  transition neff k (c * p1) (c * p2) = c * transition neff k p1 p2 /\
  (smooth_alpha neff = 1 -> transition neff k p1 p2 = p1 + p2).
Proof.
  exact (fun neff k p1 p2 c Hk H1 H2 Hc => conj (transition_sym neff k p1 p2)
    (conj (transition_scale neff k c p1 p2 Hk H1 H2 Hc) (transition_sum neff k p1 p2 Hk H1 H2))).
Qed.
Print Assumptions C26_transition_properties.

Example C26_case : s_mode ex_H = Hmcode /\ s_response ex_H = false /\
  exists r, power_spectrum_mm ex_H = Ok r /\ 0 < pk_1h r 0%nat 1%nat 1%nat /\ 0 < pk_2h r 0%nat 1%nat 1%nat /\
  0 < s_kvec ex_H 1.
Proof.
  split; [reflexivity|]. split; [reflexivity|]. destruct ex_H_ok as [r Hr]. exists r. split; [exact Hr|].
  destruct (ex_H_positive r Hr). split; [assumption|]. split; [assumption|]. simpl. lra.
Qed.

(** C27 *)
Theorem C27_factors_are_dampings : forall t s8, 0 < t -> 0 < s8 <= 37 / 10 ->
  (damping (trunc1 (Some t)) /\ rising (trunc1 (Some t))) /\
  (damping (trunc2 (Some t)) /\ falling (trunc2 (Some t))) /\
  (damping (trunc1_ia (Some t)) /\ rising (trunc1_ia (Some t))) /\
  (damping (trunc2_ia (Some t)) /\ falling (trunc2_ia (Some t))) /\
  (damping (trunc1_mead s8) /\ rising (trunc1_mead s8)) /\
  (damping (trunc2_mead s8) /\ falling (trunc2_mead s8)).
Proof.
  exact (fun t s8 Ht H8 => conj (damp1 t Ht) (conj (damp2 t) (conj (damp1_ia t Ht) (conj (damp2_ia t Ht)
    (conj (damp1_mead s8 (proj1 H8)) (damp2_mead s8 H8)))))).
Qed.
Print Assumptions C27_factors_are_dampings.

Theorem C27_scales_mean_what_they_say : forall t s, 0 < t ->
  trunc1 (Some t) (s * t) = s ^ 4 / (1 + s ^ 4) /\
  trunc1_ia (Some t) (s * t) = 1 - exp (- s ^ 2) /\ trunc2_ia (Some t) (s * t) = exp (- s ^ 2).
Proof. exact trunc_scales. Qed.
Print Assumptions C27_scales_mean_what_they_say.

Theorem C27_hmcode_half_damping : forall s8, 0 < s8 ->
  trunc1_mead s8 (5618 / 100000 * Rpower s8 (- (1013 / 1000))) = 1 / 2 /\
  trunc2_mead s8 (5699 / 100000 * Rpower s8 (- (1089 / 1000))) = 1 - 1348 / 10000 * Rpower s8 (9403 / 10000).
Proof. exact (fun s8 H => conj (mead_1h_half s8 H) (mead_2h_half s8 H)). Qed.
Print Assumptions C27_hmcode_half_damping.

Theorem C27_one_halo_truncation_acts : forall S r t, s_response S = false ->
  (forall x, is_alignment x = false -> power_spectrum x (with_k1 (Some t) S) = Ok r ->
     exists r0, power_spectrum x (with_k1 None S) = Ok r0 /\ damps_1h S (trunc1 (Some t)) r0 r) /\
  (s_mode S <> Hmcode -> power_spectrum_mm (with_k1 (Some t) S) = Ok r ->
     exists r0, power_spectrum_mm (with_k1 None S) = Ok r0 /\ damps_1h S (trunc1 (Some t)) r0 r) /\
  (forall x, is_alignment x = true -> power_spectrum x (with_k1_ia (Some t) S) = Ok r ->
     exists r0, power_spectrum x (with_k1_ia None S) = Ok r0 /\ damps_1h S (trunc1_ia (Some t)) r0 r).
Proof.
  exact (fun S r t Hr => conj (fun x => k1_damps x S r t Hr) (conj (k1_damps_mm S r t Hr)
    (fun x => k1_ia_damps x S r t Hr))).
Qed.
Print Assumptions C27_one_halo_truncation_acts.

Theorem C27_two_halo_truncation_acts : forall S r t, s_response S = false ->
  (forall x, is_alignment x = false -> s_mode S <> Bnl -> power_spectrum x (with_k2 (Some t) S) = Ok r ->
     exists r0, power_spectrum x (with_k2 None S) = Ok r0 /\ damps_2h S (trunc2 (Some t)) r0 r) /\
  (plain_mode (s_mode S) -> power_spectrum_mm (with_k2 (Some t) S) = Ok r ->
     exists r0, power_spectrum_mm (with_k2 None S) = Ok r0 /\ damps_2h S (trunc2 (Some t)) r0 r) /\
  (forall x, is_alignment x = true -> s_mode S <> Bnl -> power_spectrum x (with_k2_ia (Some t) S) = Ok r ->
     exists r0, power_spectrum x (with_k2_ia None S) = Ok r0 /\ damps_2h S (trunc2_ia (Some t)) r0 r).
Proof.
  exact (fun S r t Hr => conj (fun x => k2_damps x S r t Hr) (conj (k2_damps_mm S r t Hr)
    (fun x => k2_ia_damps x S r t Hr))).
Qed.
Print Assumptions C27_two_halo_truncation_acts.

(** The requested two-halo scale is ignored: any two requested scales give equal results,
    and the suppression never exceeds five per cent. *)
Theorem C27_requested_two_halo_scale_refuted : forall S t t',
  power_spectrum_mm (with_k2 (Some t) S) = power_spectrum_mm (with_k2 (Some t') S) /\
  (forall x, power_spectrum x (with_k2 (Some t) S) = power_spectrum x (with_k2 (Some t') S)) /\
  (forall k, 95 / 100 < trunc2 (Some t) k <= 1) /\ trunc2 (Some t) (5699 / 100000) = 975 / 1000.
Proof.
  exact (fun S t t' => conj (proj1 (k2_inert S t t')) (conj (proj2 (k2_inert S t t'))
    (conj (trunc2_range t) (trunc2_half t)))).
Qed.
Print Assumptions C27_requested_two_halo_scale_refuted.

Example C27_case : (exists r, power_spectrum_gg (with_k1 (Some 1) ex_S) = Ok r) /\
  (exists r, power_spectrum_mm (with_k2 (Some 1) ex_S) = Ok r) /\
  (exists r, power_spectrum_ii (with_k1_ia (Some 1) ex_S) = Ok r) /\
  (exists r, power_spectrum_gi (with_k2_ia (Some 1) ex_S) = Ok r) /\ trunc1 (Some 2) 2 = 1 / 2.
Proof. repeat (split; [eexists; reflexivity|]). apply trunc1_half; lra. Qed.

(** C28 *)
Theorem C28_effective_power_is_a_mixture : forall S pe, peff S = Ok (Some pe) ->
  exists pl pn, s_mode S = Fortuna /\ pk_lin S = Ok pl /\ pk_nl S = Ok (Some pn) /\
  forall z k, (s_t_eff S = 0 -> pe z k = pn z k) /\ (s_t_eff S = 1 -> pe z k = pl z k) /\
    (s_t_eff S = 1 / 2 -> pe z k = (pl z k + pn z k) / 2) /\
    (0 <= s_t_eff S <= 1 -> between (pl z k) (pn z k) (pe z k)).
Proof. exact peff_value. Qed.
Print Assumptions C28_effective_power_is_a_mixture.

Theorem C28_absent_in_other_modes : forall S, s_mode S <> Fortuna -> peff S = Ok None.
Proof. exact peff_absent. Qed.
Print Assumptions C28_absent_in_other_modes.

Example C28_case : exists pe, peff (with_mode Fortuna ex_S) = Ok (Some pe) /\ pe 0%nat 1%nat = 3.
Proof. eexists. split; [reflexivity|]. simpl. lra. Qed.

(** C29 *)
Theorem C29_gas_fraction : forall ob om m mb fst, 0 <= fst -> fst < ob / om -> 0 < mb ->
  0 <= fg_fit ob om m mb fst < ob / om - fst /\ fg_fit ob om mb mb fst = (ob / om - fst) / 2 /\
  forall m', 0 <= m -> m <= m' -> fg_fit ob om m mb fst <= fg_fit ob om m' mb fst.
Proof.
  intros ob om m mb fst H0 H1 Hm. split; [split|].
  - apply fg_fit_range; lra.
  - apply fg_fit_strict; assumption.
  - split; [apply fg_fit_half, Hm|]. intros m' Ha Hb. apply fg_fit_mono; lra.
Qed.
Print Assumptions C29_gas_fraction.

Theorem C29_simulation_gas_fraction : forall ob om logT z,
  0 < gas_pivot logT z /\ (forall m fst, fg ob om logT m z fst = fg_fit ob om m (gas_pivot logT z) fst) /\
  gas_pivot (78 / 10) 0 = pow10 (1387 / 100) /\ fs (78 / 10) 0 = 201 / 10000.
Proof.
  exact (fun ob om logT z => conj (gas_pivot_pos logT z) (conj (fun m fst => fg_is_fit ob om logT m z fst)
    (conj fiducial_pivot fiducial_stars))).
Qed.
Print Assumptions C29_simulation_gas_fraction.

Theorem C29_matter_budget_fitted_feedback : forall S fstar b z k m,
  0 < s_om S -> s_oc S + s_ob S = s_om S -> 0 < s_mb S ->
  0 <= s_mass S m -> 0 < s_rho S z -> 0 <= fstar b z m <= s_ob S / s_om S -> u_dm S z k m = 1 -> 0 <= s_oc S ->
  s_oc S / s_om S * (s_mass S m / s_rho S z) <= matter_profile_obs S fstar b z k m <= s_mass S m / s_rho S z.
Proof. exact matter_obs_weight. Qed.
Print Assumptions C29_matter_budget_fitted_feedback.

Theorem C29_matter_budget_simulated_feedback : forall S b z k m, 0 < s_om S -> s_oc S + s_ob S = s_om S ->
  0 <= s_mass S m -> 0 < s_rho S z -> 0 <= fs (s_logT S) (s_zvec S z) <= s_ob S / s_om S -> u_dm S z k m = 1 ->
  0 <= s_oc S ->
  s_oc S / s_om S * (s_mass S m / s_rho S z) <= matter_profile_fb S b z k m <= s_mass S m / s_rho S z.
Proof. exact matter_fb_weight. Qed.
Print Assumptions C29_matter_budget_simulated_feedback.

Example C29_case : 0 < s_om ex_S /\ s_oc ex_S + s_ob ex_S = s_om ex_S /\ 0 < s_mb ex_S /\ 0 < s_rho ex_S 0 /\
  u_dm ex_S 1 0 2 = 1 /\ 0 <= fs (s_logT ex_S) (s_zvec ex_S 0) <= s_ob ex_S / s_om ex_S.
Proof.
  repeat (split; [simpl; lra|]). split; [apply ex_large; simpl; lia|].
  replace (s_zvec ex_S 0) with 0 by (simpl; lra). change (s_logT ex_S) with (78 / 10). rewrite fiducial_stars. simpl. lra.
Qed.

(** C30 *)
Theorem C30_constant : forall v mass, exists p, poisson_func (PConstant v) mass = Ok p /\ forall m, p m = v.
Proof. exact poisson_constant. Qed.
Print Assumptions C30_constant.

Theorem C30_power_law : forall v M0 al mass, (forall m, 0 < mass m) ->
  exists p, poisson_func (PPowerLaw v (Some M0) (Some al)) mass = Ok p /\
  (forall m, mass m = pow10 M0 -> p m = v) /\
  (forall m m', p m * Rpower (mass m') al = p m' * Rpower (mass m) al) /\
  (forall m, p m = v * Rpower (mass m / pow10 M0) al).
Proof. exact poisson_power. Qed.
Print Assumptions C30_power_law.

Theorem C30_incomplete_rejected : forall v p s mass, p = None \/ s = None ->
  poisson_func (PPowerLaw v p s) mass = Err "ValueError".
Proof. exact poisson_rejects. Qed.
Print Assumptions C30_incomplete_rejected.

Example C30_case : exists p, poisson_func (PPowerLaw 2 (Some 0) (Some 1)) (fun m => 2 ^ m) = Ok p /\
  p 0%nat = 2 /\ p 3%nat = 16.
Proof.
  destruct (poisson_power 2 0 1 (fun m => 2 ^ m)) as (p & E & _ & _ & F).
  - intros m. apply pow_lt. lra.
  - exists p. split; [exact E|]. rewrite !F, pow10_0, !Rpower_1 by (simpl; lra). simpl. lra.
Qed.

(** C31 *)
Theorem C31_dewiggled_power : forall S a, s_plin S = Some a -> s_dewiggle S = true -> (2 <= s_nk S)%nat -> fits S a ->
  exists pl, pk_lin S = Ok pl /\ forall z k, (k < s_nk S)%nat ->
    between (a_val a z k)
            (a_val a z k - pk_wiggle (s_nk S) (s_kvec S) (a_val a z) (s_ns S) (s_lnt S) k) (pl z k).
Proof. exact lin_dewiggled. Qed.
Print Assumptions C31_dewiggled_power.

Theorem C31_smooth_power_unchanged : forall S a c, s_plin S = Some a -> s_dewiggle S = true -> (2 <= s_nk S)%nat ->
  fits S a -> (forall k, (k < s_nk S)%nat -> 0 < s_kvec S k) ->
  (forall z k, (k < s_nk S)%nat ->
     a_val a z k = c z * (Rpower (s_kvec S k) (s_ns S) * exp (s_lnt S (ln (s_kvec S k))) ^ 2)) ->
  exists pl, pk_lin S = Ok pl /\ forall z k, (k < s_nk S)%nat -> pl z k = a_val a z k.
Proof. exact lin_smooth. Qed.
Print Assumptions C31_smooth_power_unchanged.

Theorem C31_ratio_to_smooth_power_bounded : forall S a lo hi, s_plin S = Some a -> s_dewiggle S = true ->
  (2 <= s_nk S)%nat -> fits S a -> (forall k, (k < s_nk S)%nat -> 0 < s_kvec S k) ->
  (forall z k, (k < s_nk S)%nat ->
     let nw := Rpower (s_kvec S k) (s_ns S) * exp (s_lnt S (ln (s_kvec S k))) ^ 2 in
     lo * nw <= a_val a z k <= hi * nw) ->
  exists pl, pk_lin S = Ok pl /\ forall z k, (k < s_nk S)%nat ->
     let nw := Rpower (s_kvec S k) (s_ns S) * exp (s_lnt S (ln (s_kvec S k))) ^ 2 in
     lo * nw <= pl z k <= hi * nw.
Proof. exact lin_ratio_bounds. Qed.
Print Assumptions C31_ratio_to_smooth_power_bounded.

Theorem C31_spacing_check : forall nk k,
  ((2 <= nk)%nat -> spacing_guard nk k = Ok tt) /\ ((nk <= 1)%nat -> spacing_guard nk k = Err "IndexError").
Proof. exact (fun nk k => conj (guard_passes nk k) (guard_short nk k)). Qed.
Print Assumptions C31_spacing_check.

(** Unevenly spaced wavenumbers 1, 2, 4 are dewiggled without an error. *)
Theorem C31_uneven_spacing_rejected_refuted : exists S a pl, s_plin S = Some a /\ s_dewiggle S = true /\ fits S a /\
  s_kvec S 2 - s_kvec S 1 <> s_kvec S 1 - s_kvec S 0 /\ pk_lin S = Ok pl.
Proof.
  destruct ex_H_lin as (pl & E & _). exists ex_H. do 2 eexists.
  split; [reflexivity|]. split; [reflexivity|]. split; [split; reflexivity|]. split; [simpl; lra|exact E].
Qed.
Print Assumptions C31_uneven_spacing_rejected_refuted.

(** On wavenumbers evenly spaced in log and a power falling as 1/k the dispersion is known in closed form,
    and with it the damping. *)
Theorem C31_damping : forall S a (c : nat -> R) d, s_plin S = Some a -> s_dewiggle S = true -> (3 <= s_nk S)%nat -> fits S a ->
  0 < d -> 0 < s_kvec S 0 -> (forall i, (i < s_nk S)%nat -> s_kvec S i = s_kvec S 0 * exp (INR i * d)) ->
  (forall z, 0 <= c z) -> (forall z i, (i < s_nk S)%nat -> s_kvec S i * a_val a z i = c z) ->
  exists pl, pk_lin S = Ok pl /\ forall z k, (k < s_nk S)%nat ->
    pl z k = a_val a z k
      - (1 - exp (- (s_kvec S k ^ 2 * (c z * ln (s_kvec S (s_nk S - 1) / s_kvec S 0) / (6 * (PI * PI))))))
        * pk_wiggle (s_nk S) (s_kvec S) (a_val a z) (s_ns S) (s_lnt S) k.
Proof. exact lin_damped. Qed.
Print Assumptions C31_damping.

Example C31_damping_case : exists S a d, s_plin S = Some a /\ s_dewiggle S = true /\ (3 <= s_nk S)%nat /\ fits S a /\
  0 < d /\ 0 < s_kvec S 0 /\ (forall i, (i < s_nk S)%nat -> s_kvec S i = s_kvec S 0 * exp (INR i * d)) /\
  forall z i, (i < s_nk S)%nat -> s_kvec S i * a_val a z i = 5.
Proof.
  exists (with_plin (Some {| a_rows := 3; a_cols := 3; a_val := fun _ k => 5 / 2 ^ k |}) ex_H).
  eexists. exists (ln 2). split; [reflexivity|]. split; [reflexivity|]. split; [simpl; lia|]. split; [split; reflexivity|].
  split; [rewrite <- ln_1; apply ln_increasing; lra|]. split; [simpl; lra|]. split.
  - intros i _. change (2 ^ i = 2 ^ 0 * exp (INR i * ln 2)). rewrite <- Rpower_pow by lra. unfold Rpower. simpl. ring.
  - intros z i _. change (2 ^ i * (5 / 2 ^ i) = 5). field. apply pow_nonzero. lra.
Qed.

Example C31_case : exists a, s_plin ex_H = Some a /\ s_dewiggle ex_H = true /\ (2 <= s_nk ex_H)%nat /\ fits ex_H a /\
  (forall k, (k < s_nk ex_H)%nat -> 0 < s_kvec ex_H k) /\
  forall z k, (k < s_nk ex_H)%nat ->
    a_val a z k = 1 * (Rpower (s_kvec ex_H k) (s_ns ex_H) * exp (s_lnt ex_H (ln (s_kvec ex_H k))) ^ 2).
Proof.
  eexists. split; [reflexivity|]. split; [reflexivity|]. split; [simpl; lia|]. split; [split; reflexivity|].
  split; [intros k _; simpl; apply pow_lt; lra|]. intros z k Hk. cbn [a_val].
  change (s_ns ex_H) with 1. change (s_lnt ex_H (ln (s_kvec ex_H k))) with 0. change (s_kvec ex_H k) with (2 ^ k).
  rewrite Rpower_1 by (apply pow_lt; lra). rewrite exp_0. ring.
Qed.

(** C33 *)
Theorem C33_linear_shape_checked : forall S a, s_plin S = Some a -> is_hmcode (s_mode S) = false ->
  s_dewiggle S = false ->
  (fits S a -> pk_lin S = Ok (a_val a)) /\ (~ fits S a -> pk_lin S = Err "ValueError").
Proof. exact lin_shape. Qed.
Print Assumptions C33_linear_shape_checked.

Theorem C33_linear_shape_checked_dewiggled : forall S a, s_plin S = Some a ->
  is_hmcode (s_mode S) = true \/ s_dewiggle S = true -> (2 <= s_nk S)%nat ->
  ((exists p, pk_lin S = Ok p) <-> (a_rows a = s_nz S /\ (a_cols a = s_nk S \/ a_cols a = 1%nat))) /\
  ((exists p, pk_lin S = Ok p) \/ pk_lin S = Err "ValueError").
Proof. exact lin_shape_dewiggled. Qed.
Print Assumptions C33_linear_shape_checked_dewiggled.

Theorem C33_nonlinear_shape_checked : forall S a, s_pnl S = Some a ->
  is_fortuna (s_mode S) = true \/ s_response S = true ->
  (fits S a -> pk_nl S = Ok (Some (a_val a))) /\ (~ fits S a -> pk_nl S = Err "ValueError").
Proof. exact nl_shape. Qed.
Print Assumptions C33_nonlinear_shape_checked.

Theorem C33_spectra_use_the_checked_arrays : forall S r,
  (forall x, power_spectrum x S = Ok r -> exists pl, pk_lin S = Ok pl) /\
  (s_response S = false -> power_spectrum_mm S = Ok r -> exists pl, pk_lin S = Ok pl) /\
  (forall x, s_response S = true -> power_spectrum x S = Ok r -> exists pn, pk_nl S = Ok (Some pn)) /\
  (forall x, s_mode S = Fortuna -> x = MI \/ x = II \/ x = GI -> power_spectrum x S = Ok r ->
     exists pn, pk_nl S = Ok (Some pn)).
Proof.
  exact (fun S r => conj (fun x => needs_lin x S r) (conj (mm_needs_lin S r)
    (conj (fun x => response_needs_nl x S r) (fun x => fortuna_needs_nl x S r)))).
Qed.
Print Assumptions C33_spectra_use_the_checked_arrays.

(** A supplied linear spectrum of the wrong shape is accepted when dewiggling (a single column)
    and by the matter spectrum in response mode (never looked at). *)
Theorem C33_wrong_shape_always_rejected_refuted :
  (exists S a pl, s_plin S = Some a /\ ~ fits S a /\ s_dewiggle S = true /\ pk_lin S = Ok pl) /\
  (exists S a r, s_plin S = Some a /\ ~ fits S a /\ s_response S = true /\ power_spectrum_mm S = Ok r).
Proof.
  split.
  - exists (with_plin (Some {| a_rows := 3; a_cols := 1; a_val := fun _ _ => 1 |}) (with_dewiggle true ex_S)).
    destruct (lin_shape_dewiggled (with_plin (Some {| a_rows := 3; a_cols := 1; a_val := fun _ _ => 1 |})
      (with_dewiggle true ex_S)) {| a_rows := 3; a_cols := 1; a_val := fun _ _ => 1 |}) as [H _].
    + reflexivity.
    + right; reflexivity.
    + simpl; lia.
    + destruct (proj2 H) as [p E]; [split; [reflexivity|right; reflexivity]|].
      do 2 eexists. split; [reflexivity|]. split; [intros [_ G]; discriminate|]. split; [reflexivity|exact E].
  - exists (with_plin (Some {| a_rows := 9; a_cols := 9; a_val := fun _ _ => 1 |}) (with_response true ex_S)).
    do 2 eexists. split; [reflexivity|]. split; [intros [G _]; discriminate|]. split; reflexivity.
Qed.
Print Assumptions C33_wrong_shape_always_rejected_refuted.

Example C33_case : exists a, s_plin ex_S = Some a /\ fits ex_S a /\ is_hmcode (s_mode ex_S) = false /\
  s_dewiggle ex_S = false /\ exists a', s_pnl (with_mode Fortuna ex_S) = Some a' /\ fits (with_mode Fortuna ex_S) a'.
Proof.
  eexists. split; [reflexivity|]. split; [split; reflexivity|]. split; [reflexivity|]. split; [reflexivity|].
  eexists. split; [reflexivity|]. split; reflexivity.
Qed.

(** C60: one-halo terms *)
Section Integrals.
  Variables (S : spectra) (b j z k : nat) (h : halo_fields).
  Let Wm := fun M => M / s_rho S z * h_u h M.
  Let Wc := fun M => h_Nc h M / n_gal S b z.
  Let Ws := fun M => h_Ns h M * h_us h M / n_gal S b z.
  Let Wi := fun M => h_Ns h M * h_w h M / n_gal S b z.
  Let n := h_n h.
  Let bf := h_b h.
  Let request := valid_z (hctx S) /\ valid_mass (hctx S) /\ (3 <= s_nm S)%nat /\ galaxies_exist S b z /\
    sampled_at S b j z k h /\ s_response S = false.

  Theorem C60_matter_one_halo : forall r, request -> plain_mode (s_mode S) -> no_feedback S ->
    power_spectrum_mm S = Ok r -> is_parabola (fun M => Wm M * Wm M * n M) ->
    pk_1h r b z k = mass_int S (fun M => Wm M * Wm M * n M) * trunc1 (s_k1 S) (s_kvec S k).
  Proof. intros r (Hz & Hm & Hn & Hg & Hs & Hr) Hp. exact (fun Hf => mm_1h S b j z k h Hm Hn Hs r Hp Hr Hf). Qed.

  Theorem C60_clustering_one_halo : forall r P0, request -> is_bnl (s_mode S) = false -> s_poisson S = PConstant P0 ->
    power_spectrum_gg S = Ok r ->
    is_parabola (fun M => Wc M * Ws M * n M) -> is_parabola (fun M => Ws M * Ws M * n M) ->
    pk_1h r b z k = (2 * mass_int S (fun M => Wc M * Ws M * n M)
                     + P0 * mass_int S (fun M => Ws M * Ws M * n M)) * trunc1 (s_k1 S) (s_kvec S k).
  Proof. intros r P0 (Hz & Hm & Hn & Hg & Hs & Hr) Hb. exact (gg_1h S b j z k h Hz Hm Hn Hg Hs r P0 Hb Hr). Qed.

  Theorem C60_galaxy_matter_one_halo : forall r, request -> is_bnl (s_mode S) = false -> no_feedback S ->
    power_spectrum_gm S = Ok r ->
    is_parabola (fun M => Wc M * Wm M * n M) -> is_parabola (fun M => Ws M * Wm M * n M) ->
    pk_1h r b z k = (mass_int S (fun M => Wc M * Wm M * n M) + mass_int S (fun M => Ws M * Wm M * n M))
                    * trunc1 (s_k1 S) (s_kvec S k).
  Proof. intros r (Hz & Hm & Hn & Hg & Hs & Hr) Hb. exact (gm_1h S b j z k h Hz Hm Hn Hg Hs r Hb Hr). Qed.

  Theorem C60_alignment_one_halo : forall rmi rii rgi, request -> s_mode S = NoNl \/ s_mode S = Fortuna ->
    no_feedback S -> no_mass_scaling S ->
    power_spectrum_mi S = Ok rmi -> power_spectrum_ii S = Ok rii -> power_spectrum_gi S = Ok rgi ->
    is_parabola (fun M => Wm M * Wi M * n M) -> is_parabola (fun M => Wi M * Wi M * n M) ->
    is_parabola (fun M => Wc M * Wi M * n M) ->
    pk_1h rmi b z k = - (mass_int S (fun M => Wm M * Wi M * n M) * trunc1_ia (s_k1_ia S) (s_kvec S k)) /\
    pk_1h rii b z k = mass_int S (fun M => Wi M * Wi M * n M) * trunc1_ia (s_k1_ia S) (s_kvec S k) /\
    pk_1h rgi b z k = mass_int S (fun M => Wc M * Wi M * n M) * trunc1_ia (s_k1_ia S) (s_kvec S k).
  Proof.
    exact (fun rmi rii rgi '(conj Hz (conj Hm (conj Hn (conj Hg (conj Hs Hr))))) Hmo Hf Hns E1 E2 E3 P1 P2 P3 =>
      conj (mi_1h S b j z k h Hz Hm Hn Hg Hs rmi Hmo Hr Hf Hns E1 P1)
        (conj (ii_1h S b j z k h Hz Hm Hn Hg Hs rii Hmo Hr Hns E2 P2)
              (gi_1h S b j z k h Hz Hm Hn Hg Hs rgi Hmo Hr Hns E3 P3))).
  Qed.

  (** C61: two-halo terms *)
  Theorem C61_clustering_two_halo : forall r, request -> is_bnl (s_mode S) = false -> power_spectrum_gg S = Ok r ->
    is_parabola (fun M => Wc M * bf M * n M) -> is_parabola (fun M => Ws M * bf M * n M) ->
    exists pl, pk_lin S = Ok pl /\
    pk_2h r b z k = pl z k * (mass_int S (fun M => Wc M * bf M * n M) + mass_int S (fun M => Ws M * bf M * n M)) ^ 2
                    * trunc2 (s_k2 S) (s_kvec S k).
  Proof. intros r (Hz & Hm & Hn & Hg & Hs & Hr) Hb. exact (gg_2h S b j z k h Hz Hm Hn Hg Hs r Hb Hr). Qed.

  Theorem C61_galaxy_matter_two_halo : forall r, request -> is_bnl (s_mode S) = false -> power_spectrum_gm S = Ok r ->
    (forall z, 0 < s_rho S z) ->
    is_parabola (fun M => Wc M * bf M * n M) -> is_parabola (fun M => Ws M * bf M * n M) ->
    is_parabola (fun M => Wm M * bf M * n M) -> is_parabola (fun M => M / s_rho S z * bf M * n M) ->
    exists pl, pk_lin S = Ok pl /\
    pk_2h r b z k = pl z k * (mass_int S (fun M => Wc M * bf M * n M) + mass_int S (fun M => Ws M * bf M * n M))
                    * (1 + mass_int S (fun M => Wm M * bf M * n M) - mass_int S (fun M => M / s_rho S z * bf M * n M))
                    * trunc2 (s_k2 S) (s_kvec S k).
  Proof. intros r (Hz & Hm & Hn & Hg & Hs & Hr) Hb. exact (gm_2h S b j z k h Hz Hm Hn Hg Hs r Hb Hr). Qed.

  Theorem C61_matter_two_halo : forall r, request -> plain_mode (s_mode S) -> power_spectrum_mm S = Ok r ->
    (forall z, 0 < s_rho S z) ->
    is_parabola (fun M => Wm M * bf M * n M) -> is_parabola (fun M => M / s_rho S z * bf M * n M) ->
    exists pl, pk_lin S = Ok pl /\
    pk_2h r b z k = pl z k
      * (1 + mass_int S (fun M => Wm M * bf M * n M) - mass_int S (fun M => M / s_rho S z * bf M * n M)) ^ 2
      * trunc2 (s_k2 S) (s_kvec S k).
  Proof. intros r (Hz & Hm & Hn & Hg & Hs & Hr) Hb. exact (mm_2h S b j z k h Hm Hn Hs r Hb Hr). Qed.
End Integrals.
Print Assumptions C60_matter_one_halo.
Print Assumptions C60_clustering_one_halo.
Print Assumptions C60_galaxy_matter_one_halo.
Print Assumptions C60_alignment_one_halo.
Print Assumptions C61_clustering_two_halo.
Print Assumptions C61_galaxy_matter_two_halo.
Print Assumptions C61_matter_two_halo.

Example C60_case : valid_z (hctx ex_S) /\ valid_mass (hctx ex_S) /\ (3 <= s_nm ex_S)%nat /\ galaxies_exist ex_S 0 1 /\
  sampled_at ex_S 0 1 1 1 (ex_fields 1) /\ s_response ex_S = false /\ no_feedback ex_S /\ no_mass_scaling ex_S /\
  is_parabola (fun M => M / s_rho ex_S 1 * h_u (ex_fields 1) M * (M / s_rho ex_S 1 * h_u (ex_fields 1) M) * h_n (ex_fields 1) M) /\
  is_parabola (fun M => h_Ns (ex_fields 1) M * h_us (ex_fields 1) M / n_gal ex_S 0 1 * h_b (ex_fields 1) M * h_n (ex_fields 1) M).
Proof.
  split; [exact ex_valid_z|]. split; [exact ex_valid_mass|]. split; [simpl; lia|]. split; [exact ex_galaxies|].
  split; [exact (ex_sampled_at 1)|]. split; [reflexivity|]. split; [exact ex_no_feedback|]. split; [exact ex_no_scaling|].
  split.
  - exists 0, 0, (1 / 2000 * (1 / 2) * (1 / 2000 * (1 / 2))). intros t. cbn. lra.
  - exists 0, (1 / 2 / n_gal ex_S 0 1), (1 / 2 / n_gal ex_S 0 1). intros t. cbn [ex_fields h_Ns h_us h_b h_n].
    replace (1 + INR 1) with 2 by (simpl; lra). unfold Rdiv. ring.
Qed.

(** C62 *)
Theorem C62_default_gas_mass_leaves_all_gas : forall ob om m fst, fst <= ob / om -> 1000000000 <= m ->
  (1 - 1 / 1000000000000000) * (ob / om - fst) <= fg_fit ob om m (1387 / 100) fst.
Proof. exact default_mb_inert. Qed.
Print Assumptions C62_default_gas_mass_leaves_all_gas.

Example C62_case : 1 / 100 <= (1 / 20) / (3 / 10) /\ (1000000000 : R) <= 10000000000000.
Proof. split; lra. Qed.
