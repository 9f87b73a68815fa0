(** Model of src/onepower/pk.py (class Spectra).  Definitions only.

    Arrays are index functions with index order (bin b, redshift z, wavenumber k,
    mass m).  numpy broadcasting of axes of length one is an index that is ignored.
    External inputs (hmf / halomod arrays, the alignment class, the emulator) are
    fields of the record [spectra]; the HOD is the model of HodModel.v evaluated on
    the same arrays, as pk.py:1657-1675 does. *)
From Verif Require Import Base Quad Interp HodModel Dewiggle.
Open Scope R_scope.

(** pk.py:57 and hmi.py:37 (the strings are modelled in Validate.v). *)
Inductive nl_mode := Bnl | Hmcode | Fortuna | NoNl.
Inductive hm_ingr := Mead2020Fb | Mead2020 | Fit | NoIngr.

Definition is_bnl m := match m with Bnl => true | _ => false end.
Definition is_fortuna m := match m with Fortuna => true | _ => false end.
Definition is_hmcode m := match m with Hmcode => true | _ => false end.

(** utils/poisson.py: the two models with their parameters. *)
Inductive poisson_model :=
| PConstant (poisson : R)
| PPowerLaw (poisson : R) (pivot slope : option R).

(** An array handed in by the user together with its shape. *)
Record arr2 := { a_rows : nat; a_cols : nat; a_val : nat -> nat -> R }.

Record spectra := {
  s_mode : nl_mode; s_ingr : hm_ingr; s_dewiggle : bool; s_response : bool; s_pointmass : bool;
  s_nz : nat; s_nk : nat; s_nm : nat;
  s_zvec : A1; s_kvec : A1; s_mass : A1;
  s_dndlnm : A2; s_bias : A2; s_rho : A1; s_growth : A1; s_sigma8z : A1; s_neff : A1;
  s_nfw_cen : A3; s_nfw_sat : A3;
  s_nkh : nat; s_kh : A1; s_power : A2; s_nlpower : A2;
  s_plin : option arr2; s_pnl : option arr2;
  s_beta_nl : option A4; s_emulator : res A4;
  s_k1 : option R; s_k2 : option R; s_k1_ia : option R; s_k2_ia : option R;
  s_poisson : poisson_model;
  s_hod : hod_model; s_hod_set : hod_settings; s_hod_set_mm : hod_settings; s_h : R;
  s_t_eff : R; s_mb : R; s_logT : R; s_ob : R; s_oc : R; s_om : R; s_ns : R; s_lnt : R -> R;
  s_gi : A1; s_beta_cen : option R; s_mpivot_cen : option R;
  s_beta_sat : option R; s_mpivot_sat : option R; s_wkm : A3 }.

(** pk.py:60-69  PowerSpectrumResult. *)
Record psr := { pk_1h : A3; pk_2h : A3; pk_tot : A3; pk_bias : option A3 }.

(** utils/poisson.py:36-43 and 46-60. *)
Definition poisson_func (p : poisson_model) (mass : A1) : res A1 :=
  match p with
  | PConstant v => Ok (fun m => v * 1)
  | PPowerLaw v (Some M0) (Some slope) => Ok (fun m => v * fpow (mass m / pow10 M0) slope)
  | PPowerLaw _ _ _ => Err "ValueError"
  end.

(** pk.py:893-951  truncation factors at wavenumber [k]. *)
Definition trunc1 (kt : option R) (k : R) : R :=
  match kt with
  | None => 1
  | Some t => let x := k / t in x ^ 4 / (1 + x ^ 4)
  end.
Definition trunc2 (kt : option R) (k : R) : R :=
  match kt with
  | None => 1
  | Some _ => let x := k / (5699 / 100000) in
              1 - 5 / 100 * fpow x (2853 / 1000) / (1 + fpow x (2853 / 1000))
  end.
Definition trunc1_ia (kt : option R) (k : R) : R :=
  match kt with None => 1 | Some t => 1 - exp (- (k / t) ^ 2) end.
Definition trunc2_ia (kt : option R) (k : R) : R :=
  match kt with None => 1 | Some t => exp (- (k / t) ^ 2) end.

(** pk.py:953-996  hmcode truncations. *)
Definition trunc1_mead (sigma8 k : R) : R :=
  let kstar := 5618 / 100000 * fpow sigma8 (- (1013 / 1000)) in
  let x := k / kstar in x ^ 4 / (1 + x ^ 4).
Definition trunc2_mead (sigma8 k : R) : R :=
  let f := 2696 / 10000 * fpow sigma8 (9403 / 10000) in
  let kd := 5699 / 100000 * fpow sigma8 (- (1089 / 1000)) in
  let x := k / kd in
  1 - f * fpow x (2853 / 1000) / (1 + fpow x (2853 / 1000)).

(** pk.py:998-1031  transition_smoothing at one point. *)
Definition smooth_alpha (neff : R) : R := 1875 / 1000 * fpow (1603 / 1000) neff.
Definition transition (neff k p1 p2 : R) : R :=
  let pref := k ^ 3 / (2 * PI ^ 2) in
  let alpha := smooth_alpha neff in
  let d1 := pref * p1 in
  let d2 := pref * p2 in
  fpow (fpow d1 alpha + fpow d2 alpha) (1 / alpha) / pref.

(** pk.py:1408-1503  baryon fractions. *)
Definition gas_pivot (logT z : R) : R :=
  let th := logT - 78 / 10 in
  pow10 (1387 / 100 + 181 / 100 * th) * pow10 (z * (195 / 1000 * th - 108 / 1000)).
Definition fg_fit (ob om mass mb fstar : R) : R :=
  (ob / om - fstar) * (mass / mb) ^ 2 / (1 + (mass / mb) ^ 2).
Definition fg (ob om logT mass z fstar : R) : R :=
  (ob / om - fstar) * (mass / gas_pivot logT z) ^ 2 / (1 + (mass / gas_pivot logT z) ^ 2).
Definition fs (logT z : R) : R :=
  let th := logT - 78 / 10 in
  (201 / 100 - 3 / 10 * th) * (1 / 100) * pow10 (z * (409 / 1000 + 224 / 10000 * th)).

Section Spectra.
  Variable S : spectra.

  (** hmi.py:1427-1437 and 1489-1499. *)
  Definition u_dm (z k m : nat) : R := s_nfw_cen S z k m / s_nfw_cen S z 0%nat m.
  Definition u_sat (z k m : nat) : R := s_nfw_sat S z k m / s_nfw_sat S z 0%nat m.

  (** pk.py:1657-1675  the HOD object sees the same arrays. *)
  Definition ctx_of (set : hod_settings) : hod_ctx :=
    {| c_set := set; c_nm := s_nm S; c_mass := s_mass S; c_nzv := s_nz S; c_zvec := s_zvec S;
       c_dndlnm := s_dndlnm S; c_bias := s_bias S; c_h := s_h S |}.
  Definition hctx : hod_ctx := ctx_of (s_hod_set S).
  Definition sF_c : A2 := f_c hctx (s_hod S).
  Definition sF_s : A2 := f_s hctx (s_hod S).
  Definition sN_c : A3 := hod_cen hctx (s_hod S).
  Definition sN_s : A3 := hod_sat hctx (s_hod S).
  Definition sn_c : A2 := number_density_cen hctx (s_hod S).
  Definition sn_s : A2 := number_density_sat hctx (s_hod S).

  (** pk.py:1677-1687 and 602-641.  A single bin in hod_settings_mm is broadcast against
      the galaxy bins. *)
  Definition fstar : A3 := stellar_fraction hctx (s_hod S).
  Definition fstar_mm (b z m : nat) : R :=
    match s_ingr S, s_hod S with
    | Fit, Cacciato _ =>
        let row := if Nat.eqb (zbins (s_hod_set_mm S)) 1 then 0%nat else b in
        stellar_fraction (ctx_of (s_hod_set_mm S)) (s_hod S) row z m
    | _, _ => 0
    end.

  (** pk.py:1689-1699. *)
  Definition mass_avg (b z : nat) : R :=
    avg_halo_mass_cen hctx (s_hod S) b z / number_density hctx (s_hod S) b z.

  (** pk.py:439-470  _pk_lin: hmf power interpolated (and extrapolated) to k_vec, or the
      supplied array; dewiggled in hmcode mode or on request (the products with k_vec
      broadcast the columns of the array); then the shape check. *)
  Definition raw_plin : arr2 :=
    match s_plin S with
    | None => {| a_rows := s_nz S; a_cols := s_nk S;
                 a_val := fun z k => interp1d Extrapolate (s_nkh S) (s_kh S) (s_power S z) (s_kvec S k) |}
    | Some a => a
    end.
  Definition dewiggled (a : arr2) : res arr2 :=
    bind (spacing_guard (s_nk S) (s_kvec S)) (fun _ => bind (bcast (a_cols a) (s_nk S)) (fun cols =>
      let row := fun z k => a_val a z (if Nat.eqb (a_cols a) 1 then 0%nat else k) in
      Ok {| a_rows := a_rows a; a_cols := cols;
            a_val := fun z => dewiggle_plin (s_nk S) (s_kvec S) (row z) (s_ns S) (s_lnt S) |})).
  Definition pk_lin : res A2 :=
    bind (if is_hmcode (s_mode S) || s_dewiggle S then dewiggled raw_plin else Ok raw_plin)
    (fun a => if Nat.eqb (a_rows a) (s_nz S) && Nat.eqb (a_cols a) (s_nk S)
              then Ok (a_val a) else Err "ValueError").

  (** pk.py:472-498  _pk_nl. *)
  Definition pk_nl : res (option A2) :=
    if is_fortuna (s_mode S) || s_response S then
      let a := match s_pnl S with
               | None => {| a_rows := s_nz S; a_cols := s_nk S;
                            a_val := fun z k => interp1d Extrapolate (s_nkh S) (s_kh S) (s_nlpower S z) (s_kvec S k) |}
               | Some a => a
               end in
      if Nat.eqb (a_rows a) (s_nz S) && Nat.eqb (a_cols a) (s_nk S)
      then Ok (Some (a_val a)) else Err "ValueError"
    else Ok (option_map a_val (s_pnl S)).

  (** pk.py:500-514  peff. *)
  Definition peff : res (option A2) :=
    if is_fortuna (s_mode S) then
      bind pk_lin (fun pl => bind pk_nl (fun o =>
        match o with
        | Some pn => Ok (Some (fun z k => (1 - s_t_eff S) * pn z k + s_t_eff S * pl z k))
        | None => Err "TypeError"
        end))
    else Ok None.

  (** pk.py:425-437  _beta_nl_array (in bnl mode). *)
  Definition beta_nl : res A4 :=
    match s_beta_nl S with Some B => Ok B | None => s_emulator S end.

  (** pk.py:673-871  matter profiles W(b, z, k, m). *)
  Definition matter_profile (b z k m : nat) : R := s_mass S m / s_rho S z * u_dm z k m.
  Definition matter_profile_2h : A4 := matter_profile.
  Definition matter_profile_fb (b z k m : nat) : R :=
    let fst := fs (s_logT S) (s_zvec S z) in
    let W0 := s_mass S m / s_rho S z in
    (s_oc S / s_om S + fg (s_ob S) (s_om S) (s_logT S) (s_mass S m) (s_zvec S z) fst) * W0 * u_dm z k m
    + fst * W0.
  Definition matter_profile_obs (fstar : A3) (b z k m : nat) : R :=
    let W0 := s_mass S m / s_rho S z in
    (s_oc S / s_om S + fg_fit (s_ob S) (s_om S) (s_mass S m) (s_mb S) (fstar b z m)) * W0 * u_dm z k m
    + fstar b z m * W0.

  (** pk.py:1033-1078  compute_1h_term. *)
  Definition one_halo (u v : A4) (b z k : nat) : R :=
    simpson (s_nm S) (fun m => u b z k m * v b z k m * s_dndlnm S z m / s_mass S m) (s_mass S).

  (** pk.py:1080-1155  A_term. *)
  Definition A_term (z : nat) : R :=
    1 - simpson (s_nm S) (fun m => s_bias S z m * s_dndlnm S z m * (1 / s_rho S z)) (s_mass S).

  (** pk.py:1157-1203  Im_term. *)
  Definition Im_term (z k : nat) : R :=
    simpson (s_nm S) (fun m => s_bias S z m * s_dndlnm S z m * u_dm z k m * (1 / s_rho S z)) (s_mass S)
    + A_term z.

  (** pk.py:1205-1298  prepare_I22/I12/I21_integrand. *)
  Definition w_bnl (z m : nat) : R := s_bias S z m * s_dndlnm S z m * (1 / s_mass S m).
  Definition I22_part (B : A4) (z k m1 m2 : nat) : R := B z k m1 m2 * w_bnl z m1 * w_bnl z m2.
  Definition I12_part (B : A4) (z k m2 : nat) : R := B z k 0%nat m2 * w_bnl z m2.
  Definition I21_part (B : A4) (z k m1 : nat) : R := B z k m1 0%nat * w_bnl z m1.

  (** pk.py:1300-1390  I_NL for trapezoidal weights [w]. *)
  Definition I_NL_w (w : A1) (W1 W2 : A4) (A : A1) (rho : A1) (B : A4) (b z k : nat) : R :=
    let tmp := fun m1 => trap_integrate (s_nm S) w (fun m2 => I22_part B z k m1 m2 * W2 b z k m2) in
    let I_22 := trap_integrate (s_nm S) w (fun m1 => tmp m1 * W1 b z k m1) in
    let rho_fac := rho z * (1 / s_mass S 0%nat) in
    let I_11 := B z k 0%nat 0%nat * (A z * A z) * W1 b z k 0%nat * W2 b z k 0%nat * rho_fac ^ 2 in
    let i12 := trap_integrate (s_nm S) w (fun m => I12_part B z k m * W2 b z k m) in
    let I_12 := A z * W1 b z k 0%nat * i12 * rho_fac in
    let i21 := trap_integrate (s_nm S) w (fun m => I21_part B z k m * W1 b z k m) in
    let I_21 := A z * W2 b z k 0%nat * i21 * rho_fac in
    I_11 + I_12 + I_21 + I_22.
  Definition I_NL (W1 W2 : A4) (B : A4) : res A3 :=
    bind (trap_weights (s_nm S) (s_mass S)) (fun w => Ok (I_NL_w w W1 W2 A_term (s_rho S) B)).

  (** pk.py:1795-1886  galaxy profiles and integrals. *)
  Definition cen_profile (b z k m : nat) : R := sF_c b z * sN_c b z m * 1 / sn_c b z.
  Definition sat_profile (b z k m : nat) : R := sF_s b z * sN_s b z m * u_sat z k m / sn_s b z.
  Definition gal_profile (b z k m : nat) : R := cen_profile b z k m + sat_profile b z k m.
  Definition Ig_term (prof : A4) (b z k : nat) : R :=
    simpson (s_nm S) (fun m => prof b z k m * s_bias S z m * s_dndlnm S z m / s_mass S m) (s_mass S).
  Definition Ic_term : A3 := Ig_term cen_profile.
  Definition Is_term : A3 := Ig_term sat_profile.

  (** pk.py:2132-2159  alignment amplitudes. *)
  Definition C1 (z : nat) : R := 5 / 100000000000000 * s_gi S z.
  Definition amp_2h (z : nat) : R := - 1 * (C1 z * s_rho S z / s_growth S z).
  Definition amp_2h_II (z : nat) : R := (C1 z * s_rho S z / s_growth S z) ^ 2.

  (** pk.py:2177-2297  alignment profiles; mass_avg is never None. *)
  Definition mass_scaling (beta mpivot : option R) (b z : nat) : R :=
    match beta, mpivot with
    | Some be, Some mp => fpow (mass_avg b z / mp) be
    | _, _ => 1
    end.
  Definition cen_align (b z k m : nat) : R :=
    sF_c b z * (C1 z / s_growth S z) * s_mass S m * mass_scaling (s_beta_cen S) (s_mpivot_cen S) b z.
  Definition sat_align (b z k m : nat) : R :=
    sF_s b z * sN_s b z m * s_wkm S z k m / sn_s b z * mass_scaling (s_beta_sat S) (s_mpivot_sat S) b z.
  Definition gal_align (b z k m : nat) : R := cen_align b z k m + sat_align b z k m.

  (** pk.py:2299-2345. *)
  Definition I_align (prof : A4) (b z k : nat) : R :=
    Ig_term prof b z k + A_term z * prof b z k 0%nat * s_rho S z / s_mass S 0%nat.
  Definition Ic_align : A3 := I_align cen_align.
  Definition Is_align : A3 := I_align sat_align.

  Definition t1 (k : nat) : R := trunc1 (s_k1 S) (s_kvec S k).
  Definition t2 (k : nat) : R := trunc2 (s_k2 S) (s_kvec S k).
  Definition t1i (k : nat) : R := trunc1_ia (s_k1_ia S) (s_kvec S k).
  Definition t2i (k : nat) : R := trunc2_ia (s_k2_ia S) (s_kvec S k).

  (** pk.py:1550-1564  one-halo matter profile of the matter spectrum. *)
  Definition profile_mm : A4 :=
    match s_ingr S with
    | Mead2020Fb => matter_profile_fb
    | Mead2020 => matter_profile
    | Fit => matter_profile_obs fstar_mm
    | NoIngr => matter_profile
    end.

  (** pk.py:1984-1994 and 2355-2365  one-halo matter profile of gm and mi. *)
  Definition profile_xm : A4 :=
    match s_ingr S with
    | Mead2020Fb => matter_profile_fb
    | Mead2020 => matter_profile
    | Fit => matter_profile_obs fstar
    | NoIngr => if s_pointmass S then matter_profile_obs fstar else matter_profile
    end.

  (** pk.py:1543-1630  _power_spectrum_mm.  In hmcode mode with other ingredients the
      local variables are unbound (UnboundLocalError). *)
  Definition power_spectrum_mm_raw : res psr :=
    bind pk_lin (fun pl =>
    match s_mode S with
    | Bnl =>
        bind beta_nl (fun B => bind (I_NL matter_profile_2h matter_profile_2h B) (fun inl =>
        let p2 := fun b z k => pl z k * Im_term z k * Im_term z k + pl z k * inl b z k in
        let p1 := fun b z k => one_halo profile_mm profile_mm b z k * t1 k in
        Ok {| pk_1h := p1; pk_2h := p2; pk_tot := fun b z k => p1 b z k + p2 b z k; pk_bias := None |}))
    | Hmcode =>
        match s_ingr S with
        | Mead2020Fb | Mead2020 =>
            let p2 := fun b z k => pl z k * trunc2_mead (s_sigma8z S z) (s_kvec S k) in
            let p1 := fun b z k => one_halo profile_mm profile_mm b z k * trunc1_mead (s_sigma8z S z) (s_kvec S k) in
            Ok {| pk_1h := p1; pk_2h := p2;
                  pk_tot := fun b z k => transition (s_neff S z) (s_kvec S k) (p1 b z k) (p2 b z k); pk_bias := None |}
        | _ => Err "UnboundLocalError"
        end
    | _ =>
        let p2 := fun b z k => pl z k * Im_term z k * Im_term z k * t2 k in
        let p1 := fun b z k => one_halo profile_mm profile_mm b z k * t1 k in
        Ok {| pk_1h := p1; pk_2h := p2; pk_tot := fun b z k => p1 b z k + p2 b z k; pk_bias := None |}
    end).

  (** pk.py:1632-1653  power_spectrum_mm. *)
  Definition power_spectrum_mm : res psr :=
    if s_response S then
      bind pk_nl (fun o => match o with
        | Some pn => Ok {| pk_1h := fun _ _ _ => 0; pk_2h := fun _ _ _ => 0;
                           pk_tot := fun _ z k => pn z k; pk_bias := None |}
        | None => Err "TypeError" end)
    else power_spectrum_mm_raw.

  (** pk.py:1965-1968, 2058-2061, 2431-2434, 2554-2557, 2652-2655  the response factor. *)
  Definition respond (r : psr) : res psr :=
    if s_response S then
      bind pk_nl (fun o => bind power_spectrum_mm_raw (fun mm => match o with
        | Some pn =>
            let f := fun b z k => pn z k / pk_tot mm b z k in
            Ok {| pk_1h := fun b z k => pk_1h r b z k * f b z k;
                  pk_2h := fun b z k => pk_2h r b z k * f b z k;
                  pk_tot := fun b z k => pk_tot r b z k * f b z k; pk_bias := pk_bias r |}
        | None => Err "TypeError" end))
    else Ok r.

  Definition zero3 : A3 := fun _ _ _ => 0.

  (** pk.py:1888-1978  power_spectrum_gg. *)
  Definition power_spectrum_gg : res psr :=
    bind pk_lin (fun pl => bind (poisson_func (s_poisson S) (s_mass S)) (fun po =>
    bind (if is_bnl (s_mode S) then bind beta_nl (I_NL gal_profile gal_profile) else Ok zero3) (fun inl =>
    let tr := fun k => if is_bnl (s_mode S) then 1 else t2 k in
    let cc2 := fun b z k => pl z k * Ic_term b z k * Ic_term b z k * tr k in
    let ss2 := fun b z k => pl z k * Is_term b z k * Is_term b z k * tr k in
    let cs2 := fun b z k => pl z k * Ic_term b z k * Is_term b z k * tr k in
    let cs1 := fun b z k => one_halo cen_profile sat_profile b z k * t1 k in
    let ss1 := fun b z k => one_halo (fun b z k m => sat_profile b z k m * po m) sat_profile b z k * t1 k in
    let p1 := fun b z k => 2 * cs1 b z k + ss1 b z k in
    let p2 := fun b z k => cc2 b z k + ss2 b z k + 2 * cs2 b z k
                           + (if is_bnl (s_mode S) then pl z k * inl b z k else 0) in
    let bias := fun b z k => sqrt (Ic_term b z k * Ic_term b z k + Is_term b z k * Is_term b z k
                                   + 2 * Ic_term b z k * Is_term b z k) in
    respond {| pk_1h := p1; pk_2h := p2; pk_tot := fun b z k => p1 b z k + p2 b z k;
               pk_bias := Some bias |}))).

  (** pk.py:1980-2071  power_spectrum_gm. *)
  Definition power_spectrum_gm : res psr :=
    bind pk_lin (fun pl =>
    bind (if is_bnl (s_mode S) then bind beta_nl (I_NL gal_profile matter_profile_2h) else Ok zero3) (fun inl =>
    let tr := fun k => if is_bnl (s_mode S) then 1 else t2 k in
    let cm2 := fun b z k => pl z k * Ic_term b z k * Im_term z k * tr k in
    let sm2 := fun b z k => pl z k * Is_term b z k * Im_term z k * tr k in
    let cm1 := fun b z k => one_halo cen_profile profile_xm b z k * t1 k in
    let sm1 := fun b z k => one_halo sat_profile profile_xm b z k * t1 k in
    let p1 := fun b z k => cm1 b z k + sm1 b z k in
    let p2 := fun b z k => cm2 b z k + sm2 b z k
                           + (if is_bnl (s_mode S) then pl z k * inl b z k else 0) in
    let bias := fun b z k => sqrt (Ic_term b z k * Im_term z k + Is_term b z k * Im_term z k) in
    respond {| pk_1h := p1; pk_2h := p2; pk_tot := fun b z k => p1 b z k + p2 b z k;
               pk_bias := Some bias |})).

  (** peff as used in the fortuna branches (an array there). *)
  Definition peff_arr : res A2 :=
    bind peff (fun o => match o with Some p => Ok p | None => Err "TypeError" end).

  (** pk.py:2347-2441  power_spectrum_mi. *)
  Definition power_spectrum_mi : res psr :=
    let sm1 := fun b z k => - 1 * one_halo profile_xm sat_align b z k * t1i k in
    match s_mode S with
    | Bnl =>
        bind pk_lin (fun pl => bind beta_nl (fun B => bind (I_NL gal_align matter_profile_2h B) (fun inl =>
        let sm2 := fun b z k => - 1 * pl z k * Is_align b z k * Im_term z k in
        let cm2 := fun b z k => - 1 * pl z k * Ic_align b z k * Im_term z k in
        respond {| pk_1h := sm1;
                   pk_2h := fun b z k => cm2 b z k + sm2 b z k - pl z k * inl b z k;
                   pk_tot := fun b z k => sm1 b z k + cm2 b z k + sm2 b z k - pl z k * inl b z k;
                   pk_bias := None |})))
    | Fortuna =>
        bind peff_arr (fun pe =>
        let cm2 := fun b z k => sF_c b z * pe z k * amp_2h z * t2i k in
        respond {| pk_1h := sm1; pk_2h := cm2; pk_tot := fun b z k => sm1 b z k + cm2 b z k; pk_bias := None |})
    | _ =>
        bind pk_lin (fun pl =>
        let sm2 := fun b z k => - 1 * pl z k * Is_align b z k * Im_term z k * t2i k in
        let cm2 := fun b z k => - 1 * pl z k * Ic_align b z k * Im_term z k * t2i k in
        respond {| pk_1h := sm1; pk_2h := fun b z k => cm2 b z k + sm2 b z k;
                   pk_tot := fun b z k => sm1 b z k + cm2 b z k + sm2 b z k; pk_bias := None |})
    end.

  (** pk.py:2443-2564  power_spectrum_ii. *)
  Definition power_spectrum_ii : res psr :=
    let ss1 := fun b z k => one_halo sat_align sat_align b z k * t1i k in
    match s_mode S with
    | Bnl =>
        bind pk_lin (fun pl => bind beta_nl (fun B =>
        bind (I_NL sat_align sat_align B) (fun iss => bind (I_NL cen_align cen_align B) (fun icc =>
        bind (I_NL cen_align sat_align B) (fun ics =>
        let ss2 := fun b z k => pl z k * Is_align b z k * Is_align b z k + pl z k * iss b z k in
        let cc2 := fun b z k => pl z k * Ic_align b z k * Ic_align b z k + pl z k * icc b z k in
        let cs2 := fun b z k => pl z k * Ic_align b z k * Is_align b z k + pl z k * ics b z k in
        respond {| pk_1h := ss1; pk_2h := fun b z k => cc2 b z k + ss2 b z k + cs2 b z k;
                   pk_tot := fun b z k => ss1 b z k + cc2 b z k + ss2 b z k + cs2 b z k; pk_bias := None |})))))
    | Fortuna =>
        bind peff_arr (fun pe =>
        let cc2 := fun b z k => (sF_c b z) ^ 2 * pe z k * amp_2h_II z * t2i k in
        respond {| pk_1h := ss1; pk_2h := cc2; pk_tot := fun b z k => ss1 b z k + cc2 b z k; pk_bias := None |})
    | _ =>
        bind pk_lin (fun pl =>
        let ss2 := fun b z k => pl z k * Is_align b z k * Is_align b z k * t2i k in
        let cc2 := fun b z k => pl z k * Ic_align b z k * Ic_align b z k * t2i k in
        let cs2 := fun b z k => pl z k * Ic_align b z k * Is_align b z k * t2i k in
        respond {| pk_1h := ss1; pk_2h := fun b z k => cc2 b z k + ss2 b z k + cs2 b z k;
                   pk_tot := fun b z k => ss1 b z k + cc2 b z k + ss2 b z k + cs2 b z k; pk_bias := None |})
    end.

  (** pk.py:2566-2662  power_spectrum_gi. *)
  Definition power_spectrum_gi : res psr :=
    let cs1 := fun b z k => one_halo cen_profile sat_align b z k * t1i k in
    match s_mode S with
    | Bnl =>
        bind pk_lin (fun pl => bind beta_nl (fun B =>
        bind (I_NL cen_align cen_profile B) (fun icc => bind (I_NL sat_align cen_profile B) (fun ics =>
        let cc2 := fun b z k => pl z k * Ic_term b z k * Ic_align b z k + pl z k * icc b z k in
        let cs2 := fun b z k => pl z k * Ic_term b z k * Is_align b z k + pl z k * ics b z k in
        respond {| pk_1h := cs1; pk_2h := fun b z k => cs2 b z k + cc2 b z k;
                   pk_tot := fun b z k => cs1 b z k + cs2 b z k + cc2 b z k; pk_bias := None |}))))
    | Fortuna =>
        bind peff_arr (fun pe =>
        let cc2 := fun b z k => - 1 * pe z k * Ic_term b z k * amp_2h z * t2i k in
        respond {| pk_1h := cs1; pk_2h := cc2; pk_tot := fun b z k => cs1 b z k + cc2 b z k; pk_bias := None |})
    | _ =>
        bind pk_lin (fun pl =>
        let cc2 := fun b z k => pl z k * Ic_term b z k * Ic_align b z k * t2i k in
        let cs2 := fun b z k => pl z k * Ic_term b z k * Is_align b z k * t2i k in
        respond {| pk_1h := cs1; pk_2h := fun b z k => cs2 b z k + cc2 b z k;
                   pk_tot := fun b z k => cs1 b z k + cs2 b z k + cc2 b z k; pk_bias := None |})
    end.
End Spectra.
