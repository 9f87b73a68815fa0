(** Properties C125-C126: the legacy HOD module (cosmosis_modules/legacy/hod/hod_interface.py with
    hod_lib_class.py) against the class HOD (src/onepower/hod.py). *)
From Coq Require Import ZArith Lia Lra.
From Verif Require Import Base Quad Interp InterpFacts BaseFacts QuadFacts PipeModel PipeSpec PipeFacts HodModel Spec HodSpec OptModel ChainModel AupSpec LiaSpec LhModel LhSpec LhSpec2 LhFacts5 LhFacts7 LhFacts8 LhFacts9 LhFacts10 LhFacts11.
Open Scope R_scope.

(** setup and a run of execute on [b] that ends well with [b']. *)
Definition legacy_run (over : bool) (missing wrong : string) (rows : string -> res (list (R * R * R))) (opens : string -> res unit) (o : options) (b b' : dblock) : Prop :=
  exists c', lh_setup missing wrong rows opens o = Ok c' /\ lh_execute over c' b = (b', Ok tt).
(** The entry of bin [k]. *)
Definition bin_entry (b : dblock) (sec : string) (c : hod_ctx) (k : nat) (n : string) : option bval := b sec (PipeSpec.bin_name n (nbins (c_set c)) k).

(** ** C125  Both give the same halo occupation *)
Theorem C125_occupations : forall over missing wrong rows opens o b sec osec vals bias c md b', hod_says rows o b sec osec vals bias c md -> apart sec osec vals ->
  legacy_run over missing wrong rows opens o b b' -> forall k, (k < nbins (c_set c))%nat -> let at_bin := bin_entry b' sec c k in
  holds_array (at_bin "z"%string) (nz (c_set c)) (hod_z (c_set c) k) /\ holds_array (at_bin "mass"%string) (c_nm c) (c_mass c) /\
  holds_table (at_bin "N_cen"%string) (nz (c_set c)) (c_nm c) (compute_hod_cen c md k) /\ holds_table (at_bin "N_sat"%string) (nz (c_set c)) (c_nm c) (compute_hod_sat c md k) /\
  holds_table (at_bin "N_tot"%string) (nz (c_set c)) (c_nm c) (compute_hod c md k).
Proof. intros over missing wrong rows opens o b sec osec vals bias c md b' Sy A (c' & H & R) k L. exact (occupations over _ _ _ _ _ _ _ _ _ _ _ _ _ _ Sy A H R k L). Qed.
Print Assumptions C125_occupations.
Theorem C125_densities : forall over missing wrong rows opens o b sec osec vals bias c md b', hod_says rows o b sec osec vals bias c md -> apart sec osec vals ->
  legacy_run over missing wrong rows opens o b b' -> forall k, (k < nbins (c_set c))%nat -> let at_bin := bin_entry b' sec c k in
  holds_array (at_bin "number_density_cen"%string) (nz (c_set c)) (ncen c md k) /\ holds_array (at_bin "number_density_sat"%string) (nz (c_set c)) (nsat c md k) /\
  holds_array (at_bin "number_density_tot"%string) (nz (c_set c)) (ntot c md k) /\ holds_array (at_bin "central_fraction"%string) (nz (c_set c)) (fun j => ncen c md k j / ntot c md k j) /\
  holds_array (at_bin "satellite_fraction"%string) (nz (c_set c)) (fun j => nsat c md k j / ntot c md k j).
Proof. intros over missing wrong rows opens o b sec osec vals bias c md b' Sy A (c' & H & R) k L. pose proof (densities over _ _ _ _ _ _ _ _ _ _ _ _ _ _ Sy A H R k L) as D. cbv zeta. unfold bin_entry. tauto. Qed.
Print Assumptions C125_densities.
Theorem C125_bias : forall over missing wrong rows opens o b sec osec vals c md b', hod_says rows o b sec osec vals true c md -> apart sec osec vals ->
  legacy_run over missing wrong rows opens o b b' -> forall k, (k < nbins (c_set c))%nat -> let at_bin := bin_entry b' sec c k in
  holds_array (at_bin "galaxy_bias_centrals"%string) (nz (c_set c)) (bg_cen c md k) /\ holds_array (at_bin "galaxy_bias_satellites"%string) (nz (c_set c)) (bg_sat c md k) /\
  holds_array (at_bin "b"%string) (nz (c_set c)) (bg_tot c md k).
Proof. intros over missing wrong rows opens o b sec osec vals c md b' Sy A (c' & H & R) k L. exact (biases over _ _ _ _ _ _ _ _ _ _ _ _ _ _ Sy A H R k L eq_refl). Qed.
Print Assumptions C125_bias.
Theorem C125_stellar_fraction : forall over missing wrong rows opens o b sec osec vals bias c p b', hod_says rows o b sec osec vals bias c (Cacciato p) -> apart sec osec vals ->
  legacy_run over missing wrong rows opens o b b' -> forall k, (k < nbins (c_set c))%nat ->
  holds_table (bin_entry b' sec c k "f_star"%string) (nz (c_set c)) (c_nm c) (fun j m => unit_scale c (star_frac c (COF c p) k j m)).
Proof. intros over missing wrong rows opens o b sec osec vals bias c p b' Sy A (c' & H & R) k L. exact (fractions over _ _ _ _ _ _ _ _ _ _ _ _ _ _ Sy A H R k L p eq_refl). Qed.
Print Assumptions C125_stellar_fraction.
(** What the class returns at its redshifts is interpolated from these entries. *)
Theorem C125_interface : forall over missing wrong rows opens o b sec osec vals bias c md b', hod_says rows o b sec osec vals bias c md -> apart sec osec vals ->
  legacy_run over missing wrong rows opens o b b' -> (2 <= nz (c_set c))%nat -> forall k i, (k < nbins (c_set c))%nat ->
  let at_bin := bin_entry b' sec c k in let z := at_bin "z"%string in let q := c_zvec c i in
  (forall m, (m < c_nm c)%nat -> interpolated_column Extrapolate z (at_bin "N_cen"%string) m q (hod_cen c md k i m) /\
    interpolated_column Extrapolate z (at_bin "N_sat"%string) m q (hod_sat c md k i m) /\ interpolated_column Extrapolate z (at_bin "N_tot"%string) m q (hod_tot c md k i m) /\
    (is_cacciato md = true -> interpolated_column Extrapolate z (at_bin "f_star"%string) m q (stellar_fraction c md k i m))) /\
  interpolated Extrapolate z (at_bin "number_density_cen"%string) q (number_density_cen c md k i) /\ interpolated Extrapolate z (at_bin "number_density_sat"%string) q (number_density_sat c md k i) /\
  interpolated Extrapolate z (at_bin "number_density_tot"%string) q (number_density c md k i) /\
  interpolated (FillValue 0) z (at_bin "central_fraction"%string) q (f_c c md k i) /\ interpolated (FillValue 0) z (at_bin "satellite_fraction"%string) q (f_s c md k i) /\
  (bias = true -> interpolated Extrapolate z (at_bin "galaxy_bias_centrals"%string) q (galaxy_linear_bias_cen c md k i) /\
    interpolated Extrapolate z (at_bin "galaxy_bias_satellites"%string) q (galaxy_linear_bias_sat c md k i) /\ interpolated Extrapolate z (at_bin "b"%string) q (galaxy_linear_bias c md k i)).
Proof.
  intros over missing wrong rows opens o b sec osec vals bias c md b' Sy A R N k i L. cbv zeta.
  destruct (C125_occupations _ _ _ _ _ _ _ _ _ _ _ _ _ _ Sy A R k L) as (Z & _ & O1 & O2 & O3). destruct (C125_densities _ _ _ _ _ _ _ _ _ _ _ _ _ _ Sy A R k L) as (D1 & D2 & D3 & D4 & D5).
  split; [|split; [|split; [|split; [|split; [|split]]]]].
  - intros m M. split; [now apply interface_column|]. split; [now apply interface_column|]. split; [now apply interface_column|]. intros E. destruct md as [p|p|p|p|p]; try discriminate.
    apply scaled_column; try assumption. exact (C125_stellar_fraction _ _ _ _ _ _ _ _ _ _ _ _ _ _ Sy A R k L).
  - now apply interface.
  - now apply interface.
  - now apply interface.
  - unfold f_c. now apply interface.
  - unfold f_s. now apply interface.
  - intros ->. destruct (C125_bias _ _ _ _ _ _ _ _ _ _ _ _ _ Sy A R k L) as (B1 & B2 & B3). repeat split; now apply interface.
Qed.
Print Assumptions C125_interface.
(** The average mass is divided by the density here and not in the class. *)
Theorem C125_average_mass : forall over missing wrong rows opens o b sec osec vals bias c md b', hod_says rows o b sec osec vals bias c md -> apart sec osec vals ->
  legacy_run over missing wrong rows opens o b b' -> forall k, (k < nbins (c_set c))%nat ->
  holds_array (bin_entry b' sec c k "average_halo_mass"%string) (nz (c_set c)) (fun j => mass_avg_cen c md k j / ncen c md k j).
Proof. intros over missing wrong rows opens o b sec osec vals bias c md b' Sy A (c' & H & R) k L. exact (proj2 (proj2 (proj2 (proj2 (proj2 (densities over _ _ _ _ _ _ _ _ _ _ _ _ _ _ Sy A H R k L)))))). Qed.
Print Assumptions C125_average_mass.
(** Observable functions; without a file they are those of the class, times the observable and ln 10. *)
Theorem C125_observable : forall over missing wrong rows opens o b sec osec vals bias c p b' mo, hod_says rows o b sec osec vals bias c (Cacciato p) -> apart sec osec vals ->
  options_say o mo -> mo_save mo = true -> mo_mode mo = "obs_z"%string ->
  legacy_run over missing wrong rows opens o b b' -> forall k, (k < nbins (c_set c))%nat ->
  exists lo hi, least_of (bin_observables (c_set c) k) lo /\ most_of (bin_observables (c_set c) k) hi /\ let x := logspace (log10 lo) (log10 hi) (hs_nobs (c_set c)) in
    holds_array (b' osec ("z_bin_" ++ dec (k + 1))%string) (nz (c_set c)) (hod_z (c_set c) k) /\ holds_array (b' osec ("obs_val_" ++ dec (k + 1))%string) (hs_nobs (c_set c)) x /\
    forall s, In s [""; "_c"; "_s"]%string -> holds_table (b' osec ("obs_func" ++ s ++ "_" ++ dec (k + 1))%string) (nz (c_set c)) (hs_nobs (c_set c))
      (fun j q => ln 10 * interp1d (FillPair 0 0) (hs_nobs (c_set c)) (hod_obs (c_set c) k j) (fun q => observable_function c (which s p) (hod_z (c_set c) k j) (hod_obs (c_set c) k j q)) (x q) * x q).
Proof.
  intros over missing wrong rows opens o b sec osec vals bias c p b' mo Sy A Op Sv Md (c' & H & R) k L. destruct (options_config _ _ _ _ _ _ _ Op H) as (_ & Sv' & Md' & _). rewrite Sv in Sv'. rewrite Md in Md'.
  exact (bin_functions over _ _ _ _ _ _ _ _ _ _ _ _ _ _ Sy A H R k L p eq_refl Sv' Md').
Qed.
Print Assumptions C125_observable.
Theorem C125_observable_same : forall over missing wrong rows opens o b sec osec vals bias c p b' mo, hod_says rows o b sec osec vals bias c (Cacciato p) -> apart sec osec vals ->
  options_say o mo -> mo_save mo = true -> mo_mode mo = "obs_z"%string -> hs_file (c_set c) = None -> (2 <= hs_nobs (c_set c))%nat ->
  legacy_run over missing wrong rows opens o b b' -> forall k, (k < nbins (c_set c))%nat -> nth k (hs_obs_min (c_set c)) 0 < nth k (hs_obs_max (c_set c)) 0 ->
  holds_array (b' osec ("obs_val_" ++ dec (k + 1))%string) (hs_nobs (c_set c)) (hod_obs (c_set c) k 0) /\
  holds_table (b' osec ("obs_func_" ++ dec (k + 1))%string) (nz (c_set c)) (hs_nobs (c_set c)) (fun j q => ln 10 * obs_func c p k j q * hod_obs (c_set c) k j q) /\
  holds_table (b' osec ("obs_func_c_" ++ dec (k + 1))%string) (nz (c_set c)) (hs_nobs (c_set c)) (fun j q => ln 10 * obs_func_cen c p k j q * hod_obs (c_set c) k j q) /\
  holds_table (b' osec ("obs_func_s_" ++ dec (k + 1))%string) (nz (c_set c)) (hs_nobs (c_set c)) (fun j q => ln 10 * obs_func_sat c p k j q * hod_obs (c_set c) k j q).
Proof.
  intros over missing wrong rows opens o b sec osec vals bias c p b' mo Sy A Op Sv Md F N R k L Lt. destruct (C125_observable _ _ _ _ _ _ _ _ _ _ _ _ _ _ _ Sy A Op Sv Md R k L) as (lo & hi & Lo & Hi & _ & V & T).
  assert (Z : (0 < nz (c_set c))%nat) by (destruct Lo as ((j & q & J & _) & _); lia). rewrite (bin_range _ _ _ _ F Z N Lt Lo Hi) in V, T. split; [exact V|].
  assert (E : forall j q, hod_obs (c_set c) k j q = hod_obs (c_set c) k 0 q) by (intros; unfold hod_obs, log_obs_min, log_obs_max; now rewrite F).
  assert (I : forall j, incr (hs_nobs (c_set c)) (hod_obs (c_set c) k j)). { intros j. unfold hod_obs, log_obs_min, log_obs_max. rewrite F. now apply logspace_incr. }
  assert (G : forall s, In s [""; "_c"; "_s"]%string -> holds_table (b' osec ("obs_func" ++ s ++ "_" ++ dec (k + 1))%string) (nz (c_set c)) (hs_nobs (c_set c))
    (fun j q => ln 10 * observable_function c (which s p) (hod_z (c_set c) k j) (hod_obs (c_set c) k j q) * hod_obs (c_set c) k j q)).
  { intros s S. destruct (T s S) as (t & Et & Lt' & Vt). exists t. split; [exact Et|]. split; [exact Lt'|]. intros j J. destruct (Vt j J) as [V1 V2]. split; [exact V1|]. intros q Q. rewrite (V2 q Q), <- (E j q). rewrite at_node; [reflexivity|exact N|apply I|exact Q]. }
  split; [exact (G ""%string (or_introl eq_refl))|]. split; [exact (G "_c"%string (or_intror (or_introl eq_refl)))|exact (G "_s"%string (or_intror (or_intror (or_introl eq_refl))))].
Qed.
Print Assumptions C125_observable_same.

(** ** C126  Which runs end well, and the other entries *)
Theorem C126_setup : forall missing wrong rows opens o s mo bias t osec vals, settings_say rows o s -> options_say o mo -> o "hod_section_name"%string = Some (OStr t) ->
  text o "observable_section_name" "stellar_mass_function" osec -> text o "values_name" "hod_parameters" vals -> switch o "do_galaxy_linear_bias" false bias ->
  ((exists c, lh_setup missing wrong rows opens o = Ok c) <->
   (hs_unit s = "1/h"%string \/ hs_unit s = "1/h^2"%string) /\ (mo_model mo = "Cacciato"%string \/ mo_save mo = false) /\ grids_fit s).
Proof. exact setup_iff. Qed.
Print Assumptions C126_setup.
(** Files of mass limits are never read: pickle is not imported. *)
Theorem C126_limits : forall missing wrong rows opens o c, o "observables_file"%string = None -> o "mass_lim"%string <> None -> o "mass_lim_low"%string <> None ->
  lh_setup missing wrong rows opens o <> Ok c.
Proof. exact limits_fail. Qed.
Print Assumptions C126_limits.
Theorem C126_runs : forall over missing wrong rows opens o b sec osec vals bias c md c', hod_says rows o b sec osec vals bias c md -> apart sec osec vals ->
  lh_setup missing wrong rows opens o = Ok c' -> (forall n, b sec n = None) -> (forall n, b osec n = None) ->
  ((exists b', lh_execute over c' b = (b', Ok tt)) <-> halos_fit b bias /\ forall k, (k < nbins (c_set c))%nat -> occupied c md k).
Proof. exact ends. Qed.
Print Assumptions C126_runs.
(** The occupations of valid parameters are not negative. *)
Theorem C126_valid : forall over missing wrong rows opens o b sec osec vals bias c md c', hod_says rows o b sec osec vals bias c md -> apart sec osec vals ->
  lh_setup missing wrong rows opens o = Ok c' -> (forall n, b sec n = None) -> (forall n, b osec n = None) -> halos_fit b bias -> valid_mass c ->
  (forall k, (k < nbins (c_set c))%nat -> valid_obs c k \/ is_cacciato md = false) ->
  match md with Cacciato p => valid_cacciato p /\ ca_A_cen p = None | _ => within_unit (amp_cen md) end -> at_least_minus_one (amp_sat md) ->
  legacy_run over missing wrong rows opens o b (fst (lh_execute over c' b)).
Proof.
  intros over missing wrong rows opens o b sec osec vals bias c md c' Sy A H F1 F2 Hf V O C S. exists c'. split; [exact H|].
  destruct (proj2 (C126_runs over _ _ _ _ _ _ _ _ _ _ _ _ _ Sy A H F1 F2)) as (b' & R); [|now rewrite R]. split; [exact Hf|]. intros k L. apply valid_occupied; try assumption. now apply O.
Qed.
Print Assumptions C126_valid.
Theorem C126_negative : forall over missing wrong rows opens o b sec osec vals bias c md c', hod_says rows o b sec osec vals bias c md -> apart sec osec vals ->
  lh_setup missing wrong rows opens o = Ok c' -> (forall n, b sec n = None) -> halos_fit b bias -> ~ occupied c md 0 ->
  exists b', lh_execute over c' b = (b', Err "ValueError") /\ only_counts b b' sec (Z.of_nat (nbins (c_set c))) (if OptModel.has_value o "observables_file" then 1 else 0).
Proof. exact negative. Qed.
Print Assumptions C126_negative.
Theorem C126_parameter : forall over missing wrong rows opens o mo sec osec vals c' s b, settings_say rows o s -> options_say o mo -> lh_setup missing wrong rows opens o = Ok c' ->
  (exists t, o "hod_section_name"%string = Some (OStr t) /\ sec = lower t) -> section_is o "observable_section_name" "stellar_mass_function" osec -> section_is o "values_name" "hod_parameters" vals -> apart sec osec vals ->
  (forall n, b sec n = None) -> In (mo_model mo) ["Zheng"; "Zhai"; "Cacciato"]%string ->
  (exists mass z dn, b "hmf"%string "m_h"%string = Some (BArr mass) /\ b "hmf"%string "z"%string = Some (BArr z) /\ b "hmf"%string "dndlnmh"%string = Some (BTab dn)) ->
  (exists x, may_read b vals "A_cen" x) -> (exists x, may_read b vals "A_sat" x) ->
  let name n := if String.eqb (mo_model mo) "Cacciato" then n else PipeSpec.bin_name n (nbins s) 0 in
  (forall n, In n (parameters_of_model (mo_model mo)) -> (exists x, reads b vals (name n) x) \/ b vals (name n) = None) ->
  (exists n, In n (parameters_of_model (mo_model mo)) /\ b vals (name n) = None) ->
  exists b', lh_execute over c' b = (b', Err "Exception") /\ only_counts b b' sec (Z.of_nat (nbins s)) (if OptModel.has_value o "observables_file" then 1 else 0).
Proof. exact parameter_missing. Qed.
Print Assumptions C126_parameter.
Theorem C126_unknown : forall over missing wrong rows opens o mo c' b, options_say o mo -> lh_setup missing wrong rows opens o = Ok c' -> ~ In (mo_model mo) ["Zheng"; "Zhai"; "Cacciato"]%string ->
  lh_execute over c' b = (b, Err "KeyError").
Proof. exact unknown. Qed.
Print Assumptions C126_unknown.
(** Nothing outside the two sections, and nothing twice. *)
Theorem C126_frame : forall over missing wrong rows opens o t osec c' b b' r s n, lh_setup missing wrong rows opens o = Ok c' -> o "hod_section_name"%string = Some (OStr t) ->
  section_is o "observable_section_name" "stellar_mass_function" osec -> lh_execute over c' b = (b', r) -> s <> lower t -> s <> osec -> b' s n = b s n.
Proof. exact frame'. Qed.
Print Assumptions C126_frame.
Theorem C126_again : forall over missing wrong rows opens o sec osec vals c' b b', lh_setup missing wrong rows opens o = Ok c' -> (exists t, o "hod_section_name"%string = Some (OStr t) /\ sec = lower t) ->
  section_is o "observable_section_name" "stellar_mass_function" osec -> section_is o "values_name" "hod_parameters" vals -> apart sec osec vals ->
  lh_execute over c' b = (b', Ok tt) -> lh_execute over c' b' = (b', Err "BlockNameAlreadyExists").
Proof. exact again'. Qed.
Print Assumptions C126_again.
Theorem C126_counts : forall over missing wrong rows opens o b sec osec vals bias c md b' mo, hod_says rows o b sec osec vals bias c md -> apart sec osec vals -> options_say o mo ->
  legacy_run over missing wrong rows opens o b b' ->
  b' sec "nbins"%string = Some (BInt (Z.of_nat (nbins (c_set c)))) /\ b' sec "observable_z"%string = Some (BInt (if OptModel.has_value o "observables_file" then 1 else 0)) /\
  (mo_save mo = true -> b' osec "obs_func_definition"%string = Some (BStr "obs_func * obs * ln(10)") /\ b' osec "observable_mode"%string = Some (BStr (mo_mode mo))).
Proof.
  intros over missing wrong rows opens o b sec osec vals bias c md b' mo Sy A Op (c' & H & R). destruct (options_config _ _ _ _ _ _ _ Op H) as (_ & Sv & Md & _). rewrite <- Sv, <- Md.
  exact (counts over _ _ _ _ _ _ _ _ _ _ _ _ _ _ Sy A H R).
Qed.
Print Assumptions C126_counts.
(** One table over all bins, and the functions of the other two modes.  The relation between mass
    and mean observable has one value only. *)
Theorem C126_extended : forall over missing wrong rows opens o b sec osec vals bias c p b' mo, hod_says rows o b sec osec vals bias c (Cacciato p) -> apart sec osec vals -> options_say o mo ->
  legacy_run over missing wrong rows opens o b b' ->
  exists z0 z1 lo hi, least_of (redshifts (c_set c)) z0 /\ most_of (redshifts (c_set c)) z1 /\ least_of (observables (c_set c)) lo /\ most_of (observables (c_set c)) hi /\
  let zs := linspace z0 z1 15 in let x := logspace (log10 lo) (log10 hi) in
  holds_array (b' sec "z_extended"%string) 15 zs /\ holds_array (b' sec "mass_extended"%string) (c_nm c) (c_mass c) /\
  holds_table (b' sec "f_star_extended"%string) 15 (c_nm c) (fun _ m => unit_scale c (simpson 100 (fun q => cof p (x 100%nat q) (c_mass c m) * x 100%nat q) (x 100%nat) / c_mass c m)) /\
  (mo_save mo = true -> mo_mode mo = "obs_onebin"%string ->
    holds_array (b' osec "z_bin_1"%string) 15 zs /\ holds_array (b' osec "obs_val_1"%string) 100 (x 100%nat) /\
    forall s, In s [""; "_c"; "_s"]%string -> holds_table (b' osec ("obs_func" ++ s ++ "_1")%string) 15 100 (fun j q => ln 10 * observable_function c (which s p) (zs j) (x 100%nat q) * x 100%nat q)) /\
  (mo_save mo = true -> mo_mode mo = "obs_zmed"%string -> let n := hs_nobs (c_set c) in
    holds_array (b' osec "obs_val_med"%string) n (x n) /\ holds_array (b' osec "halo_mass_med"%string) (c_nm c) (c_mass c) /\
    holds_array (b' osec "mean_obs_halo_mass_relation"%string) 1 (fun _ => mean_obs_c p (c_mass c 0%nat)) /\
    forall s, In s [""; "_c"; "_s"]%string -> holds_array (b' osec ("obs_func_med" ++ s)%string) n (fun q => ln 10 * observable_function c (which s p) (mo_zmed mo) (x n q) * x n q)).
Proof.
  intros over missing wrong rows opens o b sec osec vals bias c p b' mo Sy A Op (c' & H & R). destruct (options_config _ _ _ _ _ _ _ Op H) as (_ & Sv & Md & Zm). rewrite <- Sv, <- Md, <- Zm.
  exact (extended over _ _ _ _ _ _ _ _ _ _ _ _ _ _ Sy A H R p eq_refl).
Qed.
Print Assumptions C126_extended.

(** Two masses, two redshifts and two observables; the functions at the median redshift. *)
Definition lh_options : options := fun n =>
  if String.eqb n "hod_section_name" then Some (OStr "HOD") else if String.eqb n "observable_mode" then Some (OStr "obs_zmed") else if String.eqb n "observable_h_unit" then Some (OStr "1/h")
  else if String.eqb n "do_galaxy_linear_bias" then Some (OBool true)
  else if String.eqb n "nobs" then Some (OInt 2) else if String.eqb n "log10_obs_min" then Some (ODbl 0) else if String.eqb n "log10_obs_max" then Some (ODbl (log10 2))
  else if String.eqb n "zmin" then Some (ODbl 0) else if String.eqb n "zmax" then Some (ODbl 1) else if String.eqb n "nz" then Some (OInt 2) else None.
Definition lh_block : dblock := fun s n =>
  if String.eqb s "hod_parameters" then
    if existsb (String.eqb n) ["sigma_log10_O_c"; "norm_s"]%string then Some (BDbl 1) else if existsb (String.eqb n) (parameters_of_model "Cacciato") then Some (BInt 0) else None
  else if String.eqb s "hmf" then
    if String.eqb n "m_h" then Some (BArr [1; 2]) else if String.eqb n "z" then Some (BArr [0; 1]) else if String.eqb n "dndlnmh" then Some (BTab [[1; 1]; [1; 1]]) else None
  else if String.eqb s "halobias" then
    if String.eqb n "z" then Some (BArr [0; 1]) else if String.eqb n "b_hb" then Some (BTab [[1; 2]; [1; 2]]) else None
  else None.
Definition lh_par : cacciato_par :=
  {| ca_log10_obs_norm_c := 0; ca_log10_m_ch := 0; ca_g1 := 0; ca_g2 := 0; ca_sigma := 1; ca_norm_s := 1; ca_pivot := 0; ca_alpha_s := 0; ca_beta_s := 0; ca_b0 := 0; ca_b1 := 0; ca_b2 := 0; ca_A_cen := None; ca_A_sat := None |}.
Definition lh_ctx : hod_ctx :=
  {| c_set := {| hs_file := None; hs_obs_min := [0]; hs_obs_max := [log10 2]; hs_zmin := [0]; hs_zmax := [1]; hs_nz := 2; hs_nobs := 2; hs_unit := "1/h" |};
     c_nm := 2; c_mass := fun m => nth m [1; 2] 0; c_nzv := 2; c_zvec := fun i => nth i [0; 1] 0; c_dndlnm := fun i m => nth m (nth i [[1; 1]; [1; 1]] []) 0;
     c_bias := fun i m => nth m (nth i [[1; 2]; [1; 2]] []) 0; c_h := 1 |}.
Lemma lh_says rows : hod_says rows lh_options lh_block "hod" "stellar_mass_function" "hod_parameters" true lh_ctx (Cacciato lh_par).
Proof.
  split; [|split; [|split; [|split; [|split; [|split; [|split]]]]]].
  - split; [right|split; [now left|exists "1/h"%string; split; [now left|reflexivity]]]. repeat split; try (right; eexists; split; [now left|reflexivity]). now left.
  - exists "HOD"%string. split; reflexivity.
  - eexists. split; [right; split; reflexivity|reflexivity].
  - eexists. split; [right; split; reflexivity|reflexivity].
  - now left.
  - exists "Cacciato"%string. split; [right; split; reflexivity|]. unfold model_says. split; [reflexivity|].
    repeat (split; [first [left; reflexivity|right; exists 0%Z; split; reflexivity]|]). split; reflexivity.
  - exists [1; 2], [0; 1], [[1; 1]; [1; 1]]. repeat (split; [reflexivity|]). intros _. exists [[1; 2]; [1; 2]]. repeat split; reflexivity.
  - discriminate.
Qed.
Lemma lh_apart : apart "hod" "stellar_mass_function" "hod_parameters".
Proof. split; [discriminate|]. intros s [<-|[<-|[<-|[<-|[]]]]]; split; discriminate. Qed.
Definition lh_mo : module_options := {| mo_model := "Cacciato"; mo_save := true; mo_mode := "obs_zmed"; mo_zmed := 1 / 10 |}.
Lemma lh_mo_says : options_say lh_options lh_mo.
Proof. split; [right; split; reflexivity|]. split; [right; split; reflexivity|]. split; [left; reflexivity|]. right. split; reflexivity. Qed.
Lemma log10_2_pos : 0 < log10 2.
Proof. unfold log10. pose proof ln_ten_pos. apply Rdiv_lt_0_compat; [|assumption]. rewrite <- ln_1. apply ln_increasing; lra. Qed.
Example C126_case : exists b', legacy_run false "" "" (fun _ => Err ""%string) (fun _ => Err ""%string) lh_options lh_block b'.
Proof.
  destruct (proj2 (C126_setup ""%string ""%string (fun _ => Err ""%string) (fun _ => Err ""%string) lh_options (c_set lh_ctx) lh_mo true "HOD"%string "stellar_mass_function"%string "hod_parameters"%string
    (proj1 (lh_says _)) lh_mo_says eq_refl (or_intror (conj eq_refl eq_refl)) (or_intror (conj eq_refl eq_refl)) (or_introl eq_refl))) as (c' & H).
  { split; [now left|]. split; [now left|]. split; [split; [reflexivity|split; reflexivity]|]. cbn. lia. }
  eexists. apply (C126_valid false _ _ _ _ _ _ _ _ _ _ _ _ c' (lh_says _) lh_apart H).
  - reflexivity.
  - reflexivity.
  - intros mass z dn hb E1 E2 E3. injection E1 as <-. injection E2 as <-. injection E3 as <-. split; [cbn; lia|]. split; [reflexivity|]. split; [intros r [<-|[<-|[]]]; reflexivity|].
    intros _ E4. injection E4 as <-. split; [reflexivity|]. intros r [<-|[<-|[]]]; reflexivity.
  - split; [cbn; lia|]. exists 2. split; [lra|]. split; [cbn; lra|]. intros i I. cbn in I. assert (i = 0%nat) by lia. subst i. cbn. lra.
  - intros k K. cbn in K. assert (k = 0%nat) by lia. subst k. left. split; [cbn; lia|]. intros j _. pose proof log10_2_pos. unfold log_obs_max, log_obs_min. cbn. lra.
  - split; [split; cbn; lra|reflexivity].
  - intros a E. discriminate.
Qed.
(** The relation has one value for the two masses. *)
Theorem C126_relation_refuted : exists b', legacy_run false "" "" (fun _ => Err ""%string) (fun _ => Err ""%string) lh_options lh_block b' /\
  holds_array (b' "stellar_mass_function"%string "halo_mass_med"%string) 2 (fun m => INR m + 1) /\ holds_array (b' "stellar_mass_function"%string "mean_obs_halo_mass_relation"%string) 1 (fun _ => mean_obs_c lh_par 1).
Proof.
  destruct C126_case as (b' & R). exists b'. split; [exact R|].
  destruct (C126_extended _ _ _ _ _ _ _ _ _ _ _ _ _ _ _ (lh_says _) lh_apart lh_mo_says R) as (z0 & z1 & lo & hi & _ & _ & _ & _ & _ & _ & _ & _ & M). destruct (M eq_refl eq_refl) as (_ & (l & E & L & V) & Re & _). cbv zeta in *. split; [|exact Re].
  exists l. split; [exact E|]. split; [exact L|]. intros j J. rewrite (V j J). destruct j as [|[|j]]; cbn; [lra|lra|]. lia.
Qed.
Print Assumptions C126_relation_refuted.

(** Zheng's model with a sharp step at the lower mass. *)
Definition zh_options : options := fun n =>
  if String.eqb n "hod_model" then Some (OStr "Zheng") else if String.eqb n "save_observable" then Some (OBool false) else lh_options n.
Definition zh_block : dblock := fun s n =>
  if String.eqb s "hod_parameters" then if existsb (String.eqb n) (parameters_of_model "Zheng") then Some (BInt 0) else None else lh_block s n.
Definition zh_par : zheng_par := {| zh_log10_Mmin := [0]; zh_log10_M0 := [0]; zh_log10_M1 := [0]; zh_sigma := [0]; zh_alpha := [0]; zh_A_cen := None; zh_A_sat := None |}.
Lemma zh_says rows : hod_says rows zh_options zh_block "hod" "stellar_mass_function" "hod_parameters" true lh_ctx (Zheng zh_par).
Proof.
  destruct (lh_says rows) as (S1 & S2 & S3 & S4 & S5 & _ & S7). split; [exact S1|]. split; [exact S2|]. split; [exact S3|]. split; [exact S4|]. split; [exact S5|]. split; [|exact S7].
  exists "Zheng"%string. split; [left; reflexivity|]. unfold model_says. split; [reflexivity|].
  repeat (split; [intros k K; cbn in K; assert (k = 0%nat) by lia; subst k; right; exists 0%Z; split; reflexivity|]). split; reflexivity.
Qed.
Definition zh_mo : module_options := {| mo_model := "Zheng"; mo_save := false; mo_mode := "obs_zmed"; mo_zmed := 1 / 10 |}.
Lemma zh_mo_says : options_say zh_options zh_mo.
Proof. split; [left; reflexivity|]. split; [left; reflexivity|]. split; [left; reflexivity|]. right. split; reflexivity. Qed.
Example C125_case : exists b', legacy_run false "" "" (fun _ => Err ""%string) (fun _ => Err ""%string) zh_options zh_block b'.
Proof.
  destruct (proj2 (C126_setup ""%string ""%string (fun _ => Err ""%string) (fun _ => Err ""%string) zh_options (c_set lh_ctx) zh_mo true "HOD"%string "stellar_mass_function"%string "hod_parameters"%string
    (proj1 (zh_says _)) zh_mo_says eq_refl (or_intror (conj eq_refl eq_refl)) (or_intror (conj eq_refl eq_refl)) (or_introl eq_refl))) as (c' & H).
  { split; [now left|]. split; [now right|]. split; [split; [reflexivity|split; reflexivity]|]. cbn. lia. }
  eexists. apply (C126_valid false _ _ _ _ _ _ _ _ _ _ _ _ c' (zh_says _) lh_apart H).
  - reflexivity.
  - reflexivity.
  - intros mass z dn hb E1 E2 E3. injection E1 as <-. injection E2 as <-. injection E3 as <-. split; [cbn; lia|]. split; [reflexivity|]. split; [intros r [<-|[<-|[]]]; reflexivity|].
    intros _ E4. injection E4 as <-. split; [reflexivity|]. intros r [<-|[<-|[]]]; reflexivity.
  - split; [cbn; lia|]. exists 2. split; [lra|]. split; [cbn; lra|]. intros i I. cbn in I. assert (i = 0%nat) by lia. subst i. cbn. lra.
  - now right.
  - intros a E. discriminate.
  - intros a E. discriminate.
Qed.
Lemma zh_cen j m : (m < 2)%nat -> compute_hod_cen lh_ctx (Zheng zh_par) 0 j m = 1.
Proof.
  intros M. cbn. unfold erf_cen. destruct (Req_EM_T 0 0); [|contradiction]. unfold heaviside. unfold pow10. rewrite Rpower_O by (unfold ten; lra).
  destruct m as [|[|m]]; [| |lia]; cbn; repeat destruct (Rlt_dec _ _); repeat destruct (Req_EM_T _ _); lra.
Qed.
Lemma zh_dn j m : (m < 2)%nat -> dndlnm_int lh_ctx 0 j m = 1.
Proof. intros M. unfold dndlnm_int. cbn [interp1d]. rewrite (interp_ext _ _ _ (fun _ => 1)); [apply interp_const; [cbn; lia|]; intros i I; cbn in I; assert (i = 0%nat) by lia; subst i; cbn; lra|cbn; lia|]. intros i I. cbn in I. destruct i as [|[|i]]; [| |lia]; destruct m as [|[|m]]; try lia; reflexivity. Qed.
(** The mean mass over the two halos is 4/3; the class says 1. *)
Theorem C125_average_mass_refuted : exists b' y, legacy_run false "" "" (fun _ => Err ""%string) (fun _ => Err ""%string) zh_options zh_block b' /\
  interpolated (FillValue 0) (bin_entry b' "hod" lh_ctx 0 "z"%string) (bin_entry b' "hod" lh_ctx 0 "average_halo_mass"%string) (c_zvec lh_ctx 0) y /\ y <> avg_halo_mass_cen lh_ctx (Zheng zh_par) 0 0.
Proof.
  destruct C125_case as (b' & R). exists b'. eexists. split; [exact R|].
  pose proof (C125_average_mass _ _ _ _ _ _ _ _ _ _ _ _ _ _ (zh_says _) lh_apart R 0%nat) as A. destruct (C125_occupations _ _ _ _ _ _ _ _ _ _ _ _ _ _ (zh_says _) lh_apart R 0%nat) as (Z & _); [cbn; lia|].
  split; [apply (interface lh_ctx 0 0 _ _ (FillValue 0) (fun k j => mass_avg_cen lh_ctx (Zheng zh_par) k j / ncen lh_ctx (Zheng zh_par) k j)); [cbn; lia|exact Z|apply A; cbn; lia]|].
  assert (M : forall j, mass_avg_cen lh_ctx (Zheng zh_par) 0 j = 1). { intros j. unfold mass_avg_cen, mean_mass_integral, simpson. cbn [c_nm lh_ctx Nat.even Nat.eqb]. fold lh_ctx. rewrite !zh_cen, !zh_dn by lia. cbn. lra. }
  assert (D : forall j, ncen lh_ctx (Zheng zh_par) 0 j = 3 / 4). { intros j. unfold ncen, mass_integral, simpson. cbn [c_nm lh_ctx Nat.even Nat.eqb]. fold lh_ctx. rewrite !zh_cen, !zh_dn by lia. cbn. lra. }
  assert (I : incr 2 (hod_z (c_set lh_ctx) 0)). { intros i Hi. assert (i = 0%nat) by lia. subst i. cbn. lra. }
  assert (Q : c_zvec lh_ctx 0 = hod_z (c_set lh_ctx) 0 0) by (cbn; lra).
  unfold avg_halo_mass_cen, z_interpolate. rewrite Q. rewrite !at_node; try exact I; try (cbn; lia). rewrite !M, D. lra.
Qed.
Print Assumptions C125_average_mass_refuted.
