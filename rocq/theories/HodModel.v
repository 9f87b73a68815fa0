(** Model of src/onepower/hod.py.  Definitions only.

    Arrays are index functions; index order follows the numpy axes:
    bin [b], HOD redshift node [j], halo mass [m], observable [o], output
    redshift [i].  Simplifications: floats are reals; [np.array_equal(self.z,
    self.z_vec)] (hod.py:127,149) compares a 2-d with a 1-d array, is always
    False, and the shortcut it guards is therefore dead and omitted; files are
    given by their parsed contents. *)
From Verif Require Import Base Quad Interp Erf.
Open Scope R_scope.

(** hod_settings, hod.py:15-24 (defaults) and 87.  [hs_file] is the parsed content
    (z, obs_min, obs_max) of 'observables_file' (hod.py:27-44), [None] for None. *)
Record hod_settings := {
  hs_file : option (list (R * R * R));
  hs_obs_min : list R;
  hs_obs_max : list R;
  hs_zmin : list R;
  hs_zmax : list R;
  hs_nz : nat;
  hs_nobs : nat;
  hs_unit : string }.

(** hod.py:14  valid_units[1]. *)
Definition unit_h2 : string := "1/h^2".

Section Settings.
  Variable s : hod_settings.

  (** hod.py:188-201  nbins. *)
  Definition nbins : nat :=
    match hs_file s with Some _ => 1%nat | None => List.length (hs_obs_min s) end.

  (** hod.py:203-216  nz. *)
  Definition nz : nat :=
    match hs_file s with Some d => List.length d | None => hs_nz s end.

  (** Number of rows of the redshift array, hod.py:218-238: the loop runs over
      zip(zmin, zmax, strict=False), which stops at the shorter list. *)
  Definition zbins : nat :=
    match hs_file s with
    | Some _ => 1%nat
    | None => List.length (combine (hs_zmin s) (hs_zmax s))
    end.

  (** hod.py:218-238  z[b, j]. *)
  Definition hod_z (b j : nat) : R :=
    match hs_file s with
    | Some d => fst (fst (nth j d (0, 0, 0)))
    | None => let '(zmin_i, zmax_i) := nth b (combine (hs_zmin s) (hs_zmax s)) (0, 0) in
              linspace zmin_i zmax_i nz j
    end.

  (** hod.py:240-254  log_obs_min[b, j]. *)
  Definition log_obs_min (b j : nat) : R :=
    match hs_file s with
    | Some d => log10 (snd (fst (nth j d (0, 0, 0))))
    | None => nth b (hs_obs_min s) 0
    end.

  (** hod.py:256-270  log_obs_max[b, j]. *)
  Definition log_obs_max (b j : nat) : R :=
    match hs_file s with
    | Some d => log10 (snd (nth j d (0, 0, 0)))
    | None => nth b (hs_obs_max s) 0
    end.

  (** hod.py:93-115  obs[b, j, 0, o]. *)
  Definition hod_obs (b j o : nat) : R :=
    logspace (log_obs_min b j) (log_obs_max b j) (hs_nobs s) o.
End Settings.

(** Constructor arguments, hod.py:74-91.  [c_nm], [c_nzv] are the lengths of
    [mass] and [z_vec]; [dndlnm] and [halo_bias] are indexed (z_vec, mass). *)
Record hod_ctx := {
  c_set : hod_settings;
  c_nm : nat;
  c_mass : A1;
  c_nzv : nat;
  c_zvec : A1;
  c_dndlnm : A2;
  c_bias : A2;
  c_h : R }.

(** A model parameter that is a scalar or an array over bins, e.g. hod.py:1312-1322:
    a scalar becomes a one-element array, which numpy broadcasts over bins. *)
Definition bin_par (l : list R) (b : nat) : R :=
  if Nat.eqb (List.length l) 1 then nth 0 l 0 else nth b l 0.

(** Decorated HOD of the central occupation, hod.py:1000-1003 (and 1141-1143,
    1258-1260, 1418-1420, 1580-1582). *)
Definition decorate_cen (A : option R) (N : R) : R :=
  match A with None => N | Some a => N + a * fmin N (1 - N) end.

(** Decorated HOD of the satellite occupation, hod.py:1013-1015 (and 1152-1154,
    1269-1271, 1431-1433, 1592-1594). *)
Definition decorate_sat (A : option R) (N : R) : R :=
  match A with None => N | Some a => N + a * N end.

(** ** Occupation functions at one mass *)

(** hod.py:1140 and 1257  np.heaviside(self.mass - self.Mmin, 1.0). *)
Definition step_cen (Mmin m : R) : R := heaviside (m - Mmin) 1.

(** hod.py:1413-1417 and 1575-1579. *)
Definition erf_cen (sigma Mmin m : R) : R :=
  if Req_EM_T sigma 0 then heaviside (m - Mmin) 1
  else 1 / 2 * (1 + erf (log10 (m / Mmin) / sigma)).

(** hod.py:1151 [cen] is the decorated central occupation. *)
Definition simple_sat (cen Msat alpha m : R) : R := cen * fpow (m / Msat) alpha.

(** hod.py:1268. *)
Definition zehavi_sat (Msat alpha m : R) : R := fpow (m / Msat) alpha.

(** hod.py:1428-1430. *)
Definition zheng_sat (M0 M1 alpha m : R) : R :=
  fpow (heaviside (m - M0) 1 * (m - M0) / M1) alpha.

(** hod.py:1591. *)
Definition zhai_sat (Msat Mcut alpha m : R) : R :=
  fpow (m / Msat) alpha * exp (- Mcut / m).

(** ** Model parameters (the _defaults dictionaries) *)
(** hod.py:748-763. *)
Record cacciato_par := {
  ca_log10_obs_norm_c : R; ca_log10_m_ch : R; ca_g1 : R; ca_g2 : R;
  ca_sigma : R; ca_norm_s : R; ca_pivot : R; ca_alpha_s : R; ca_beta_s : R;
  ca_b0 : R; ca_b1 : R; ca_b2 : R; ca_A_cen : option R; ca_A_sat : option R }.
(** hod.py:1067-1073 and 1184-1190. *)
Record simple_par := {
  si_log10_Mmin : list R; si_log10_Msat : list R; si_alpha : list R;
  si_A_cen : option R; si_A_sat : option R }.
(** hod.py:1302-1310. *)
Record zheng_par := {
  zh_log10_Mmin : list R; zh_log10_M0 : list R; zh_log10_M1 : list R;
  zh_sigma : list R; zh_alpha : list R; zh_A_cen : option R; zh_A_sat : option R }.
(** hod.py:1464-1472. *)
Record zhai_par := {
  zi_log10_Mmin : list R; zi_log10_Msat : list R; zi_log10_Mcut : list R;
  zi_sigma : list R; zi_alpha : list R; zi_A_cen : option R; zi_A_sat : option R }.

Inductive hod_model :=
| Cacciato (p : cacciato_par)
| Simple (p : simple_par)
| Zehavi (p : simple_par)
| Zheng (p : zheng_par)
| Zhai (p : zhai_par).

(** ** Cacciato conditional observable functions *)
Section CacciatoModel.
  Variables (c : hod_ctx) (p : cacciato_par).

  (** hod.py:765-775, 777-787. *)
  Definition M_char : R := pow10 (ca_log10_m_ch p).
  Definition Obs_norm_c : R := pow10 (ca_log10_obs_norm_c p).

  (** hod.py:940-968  cal_mean_obs_c at mass [m]. *)
  Definition mean_obs_c (m : R) : R :=
    Obs_norm_c * fpow (m / M_char) (ca_g1 p)
    / fpow (1 + m / M_char) (ca_g1 p - ca_g2 p).

  (** hod.py:970-990  phi_star_s at mass [m]. *)
  Definition phi_star_s (m : R) : R :=
    let lp := log10 m - ca_pivot p in
    pow10 (ca_b0 p + ca_b1 p * lp + ca_b2 p * (lp ^ 2)).

  (** hod.py:789-817  COF_cen at observable [o] and mass [m] (values). *)
  Definition cof_cen (o m : R) : R :=
    1 / (sqrt (2 * PI) * ln ten * ca_sigma p * o)
    * exp (- ((log10 (o / mean_obs_c m)) ^ 2) / (2 * ca_sigma p ^ 2)).

  (** hod.py:819-842  COF_sat. *)
  Definition cof_sat (o m : R) : R :=
    let obs_s_star := ca_norm_s p * mean_obs_c m in
    let obs_tilde := o / obs_s_star in
    (phi_star_s m / obs_s_star) * fpow obs_tilde (ca_alpha_s p)
    * exp (- fpow obs_tilde (ca_beta_s p)).

  (** hod.py:844-854  COF. *)
  Definition cof (o m : R) : R := cof_cen o m + cof_sat o m.

  (** Array forms (b, j, m, o). *)
  Definition COF_cen (b j m o : nat) : R := cof_cen (hod_obs (c_set c) b j o) (c_mass c m).
  Definition COF_sat (b j m o : nat) : R := cof_sat (hod_obs (c_set c) b j o) (c_mass c m).
  Definition COF (b j m o : nat) : R := cof (hod_obs (c_set c) b j o) (c_mass c m).

  (** hod.py:992-1016  integrals over the observable, then decoration. *)
  Definition cacciato_cen (b j m : nat) : R :=
    decorate_cen (ca_A_cen p)
      (simpson (hs_nobs (c_set c)) (COF_cen b j m) (hod_obs (c_set c) b j)).
  Definition cacciato_sat (b j m : nat) : R :=
    decorate_sat (ca_A_sat p)
      (simpson (hs_nobs (c_set c)) (COF_sat b j m) (hod_obs (c_set c) b j)).

  (** hod.py:1018-1046  stellar fractions on the HOD grid. *)
  Definition star_frac (cofx : nat -> nat -> nat -> nat -> R) (b j m : nat) : R :=
    simpson (hs_nobs (c_set c)) (fun o => cofx b j m o * hod_obs (c_set c) b j o)
            (hod_obs (c_set c) b j) / c_mass c m.
End CacciatoModel.

(** ** Occupations on the HOD grid: [_compute_hod_cen], [_compute_hod_sat] *)

(** hod.py:993-1003, 1136-1144, 1253-1261, 1409-1421, 1571-1583.  np.tile repeats
    the same row for every redshift node [j]. *)
Definition compute_hod_cen (c : hod_ctx) (md : hod_model) (b j m : nat) : R :=
  match md with
  | Cacciato p => cacciato_cen c p b j m
  | Simple p => decorate_cen (si_A_cen p)
                  (step_cen (pow10 (bin_par (si_log10_Mmin p) b)) (c_mass c m))
  | Zehavi p => decorate_cen (si_A_cen p)
                  (step_cen (pow10 (bin_par (si_log10_Mmin p) b)) (c_mass c m))
  | Zheng p => decorate_cen (zh_A_cen p)
                 (erf_cen (bin_par (zh_sigma p) b) (pow10 (bin_par (zh_log10_Mmin p) b)) (c_mass c m))
  | Zhai p => decorate_cen (zi_A_cen p)
                (erf_cen (bin_par (zi_sigma p) b) (pow10 (bin_par (zi_log10_Mmin p) b)) (c_mass c m))
  end.

(** hod.py:1006-1016, 1147-1155, 1264-1272, 1424-1434, 1586-1595. *)
Definition compute_hod_sat (c : hod_ctx) (md : hod_model) (b j m : nat) : R :=
  match md with
  | Cacciato p => cacciato_sat c p b j m
  | Simple p => decorate_sat (si_A_sat p)
                  (simple_sat (compute_hod_cen c md b j m)
                     (pow10 (bin_par (si_log10_Msat p) b)) (bin_par (si_alpha p) b) (c_mass c m))
  | Zehavi p => decorate_sat (si_A_sat p)
                  (zehavi_sat (pow10 (bin_par (si_log10_Msat p) b)) (bin_par (si_alpha p) b) (c_mass c m))
  | Zheng p => decorate_sat (zh_A_sat p)
                 (zheng_sat (pow10 (bin_par (zh_log10_M0 p) b)) (pow10 (bin_par (zh_log10_M1 p) b))
                    (bin_par (zh_alpha p) b) (c_mass c m))
  | Zhai p => decorate_sat (zi_A_sat p)
                (zhai_sat (pow10 (bin_par (zi_log10_Msat p) b)) (pow10 (bin_par (zi_log10_Mcut p) b))
                   (bin_par (zi_alpha p) b) (c_mass c m))
  end.

(** hod.py:671-676  _compute_hod. *)
Definition compute_hod (c : hod_ctx) (md : hod_model) (b j m : nat) : R :=
  compute_hod_cen c md b j m + compute_hod_sat c md b j m.

(** ** Integrals over the halo mass function *)
Section Integrals.
  Variable c : hod_ctx.

  (** hod.py:117-137  dndlnm_int[b, j, m]. *)
  Definition dndlnm_int (b j m : nat) : R :=
    interp1d Extrapolate (c_nzv c) (c_zvec c) (fun i => c_dndlnm c i m) (hod_z (c_set c) b j).

  (** hod.py:139-159  halo_bias_int[b, j, m]. *)
  Definition halo_bias_int (b j m : nat) : R :=
    interp1d Extrapolate (c_nzv c) (c_zvec c) (fun i => c_bias c i m) (hod_z (c_set c) b j).

  (** hod.py:272-287  _mass_integral. *)
  Definition mass_integral (hod : A3) (b j : nat) : R :=
    simpson (c_nm c) (fun m => hod b j m * dndlnm_int b j m / c_mass c m) (c_mass c).

  (** hod.py:289-304  _mean_mass_integral. *)
  Definition mean_mass_integral (hod : A3) (b j : nat) : R :=
    simpson (c_nm c) (fun m => hod b j m * dndlnm_int b j m) (c_mass c).

  (** hod.py:306-321  _bias_integral; [ntot] is self._ntot. *)
  Definition bias_integral (ntot : A2) (hod : A3) (b j : nat) : R :=
    simpson (c_nm c) (fun m => hod b j m * halo_bias_int b j m * dndlnm_int b j m / c_mass c m)
            (c_mass c) / ntot b j.

  (** hod.py:323-347  _interpolate of data on the HOD nodes to the output redshifts. *)
  Definition z_interpolate (f : fill) (data : A2) (b i : nat) : R :=
    interp1d f (nz (c_set c)) (hod_z (c_set c) b) (data b) (c_zvec c i).
End Integrals.

Section HodApi.
  Variables (c : hod_ctx) (md : hod_model).

  (** hod.py:349-377. *)
  Definition ncen : A2 := mass_integral c (compute_hod_cen c md).
  Definition nsat : A2 := mass_integral c (compute_hod_sat c md).
  Definition ntot : A2 := mass_integral c (compute_hod c md).

  (** hod.py:379-404. *)
  Definition mass_avg_cen : A2 := mean_mass_integral c (compute_hod_cen c md).
  Definition mass_avg_sat : A2 := mean_mass_integral c (compute_hod_sat c md).
  Definition mass_avg_tot : A2 := mean_mass_integral c (compute_hod c md).

  (** hod.py:406-431. *)
  Definition bg_cen : A2 := bias_integral c ntot (compute_hod_cen c md).
  Definition bg_sat : A2 := bias_integral c ntot (compute_hod_sat c md).
  Definition bg_tot : A2 := bias_integral c ntot (compute_hod c md).

  (** hod.py:433-467. *)
  Definition number_density_cen : A2 := z_interpolate c Extrapolate ncen.
  Definition number_density_sat : A2 := z_interpolate c Extrapolate nsat.
  Definition number_density : A2 := z_interpolate c Extrapolate ntot.

  (** hod.py:469-493. *)
  Definition f_c : A2 := z_interpolate c (FillValue 0) (fun b j => ncen b j / ntot b j).
  Definition f_s : A2 := z_interpolate c (FillValue 0) (fun b j => nsat b j / ntot b j).

  (** hod.py:495-529. *)
  Definition avg_halo_mass_cen : A2 := z_interpolate c (FillValue 0) mass_avg_cen.
  Definition avg_halo_mass_sat : A2 := z_interpolate c (FillValue 0) mass_avg_sat.
  Definition avg_halo_mass : A2 := z_interpolate c (FillValue 0) mass_avg_tot.

  (** hod.py:531-565. *)
  Definition galaxy_linear_bias_cen : A2 := z_interpolate c Extrapolate bg_cen.
  Definition galaxy_linear_bias_sat : A2 := z_interpolate c Extrapolate bg_sat.
  Definition galaxy_linear_bias : A2 := z_interpolate c Extrapolate bg_tot.

  (** hod.py:567-601  (axis=0 of data[i], i.e. the redshift axis). *)
  Definition hod_cen (b i m : nat) : R :=
    z_interpolate c Extrapolate (fun b j => compute_hod_cen c md b j m) b i.
  Definition hod_sat (b i m : nat) : R :=
    z_interpolate c Extrapolate (fun b j => compute_hod_sat c md b j m) b i.
  Definition hod_tot (b i m : nat) : R :=
    z_interpolate c Extrapolate (fun b j => compute_hod c md b j m) b i.

  (** hod.py:617-619 and twins: fstar * h for the second unit. *)
  Definition unit_scale (x : R) : R :=
    if String.eqb (hs_unit (c_set c)) unit_h2 then x * c_h c else x.

  (** hod.py:603-655; the base class returns None (hod.py:678-688) for every model
      but Cacciato and the result is an array of zeros. *)
  Definition stellar_fraction_of (sel : cacciato_par -> A4) (b i m : nat) : R :=
    match md with
    | Cacciato p =>
        unit_scale (z_interpolate c Extrapolate (fun b j => star_frac c (sel p) b j m) b i)
    | _ => 0
    end.
  Definition stellar_fraction_cen : A3 := stellar_fraction_of (COF_cen c).
  Definition stellar_fraction_sat : A3 := stellar_fraction_of (COF_sat c).
  Definition stellar_fraction : A3 := stellar_fraction_of (COF c).

  (** Rows (first axis) of the occupation array: numpy broadcasting of the per-bin
      parameter arrays; for Cacciato the loop over range(self.nbins) of hod.py:105-112. *)
  Definition bcast (a b : nat) : res nat :=
    if Nat.eqb a b then Ok a else if Nat.eqb a 1 then Ok b else if Nat.eqb b 1 then Ok a
    else Err "ValueError".
  Definition rows_cen : res nat :=
    match md with
    | Cacciato _ => Ok (nbins (c_set c))
    | Simple p | Zehavi p => Ok (List.length (si_log10_Mmin p))
    | Zheng p => bcast (List.length (zh_sigma p)) (List.length (zh_log10_Mmin p))
    | Zhai p => bcast (List.length (zi_sigma p)) (List.length (zi_log10_Mmin p))
    end.

  (** hod.py:341-346: [_interpolate] reads data[i] for i in range(self.z.shape[0])
      and returns one row per i.  The call as the user sees it: number of rows of the
      result and its entries, or the exception. *)
  Definition hod_cen_call : res (nat * A3) :=
    bind rows_cen (fun r =>
      if Nat.ltb r (zbins (c_set c)) then Err "IndexError"
      else Ok (zbins (c_set c), hod_cen)).
End HodApi.

(** hod.py:856-938  observable functions on the HOD grid (b, j, o). *)
Section ObsFunc.
  Variables (c : hod_ctx) (p : cacciato_par).
  Definition obs_func_of (cofx : A4) (b j o : nat) : R :=
    simpson (c_nm c) (fun m => cofx b j m o * dndlnm_int c b j m / c_mass c m) (c_mass c).
  Definition obs_func_cen : A3 := obs_func_of (COF_cen c p).
  Definition obs_func_sat : A3 := obs_func_of (COF_sat c p).
  Definition obs_func : A3 := obs_func_of (COF c p).
End ObsFunc.
