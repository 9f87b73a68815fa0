(** Model of cosmosis_modules/legacy/halo_model_ingredients (halo_model_ingredients_halomod.py and
    halo_model_utility.py), the module behind HaloModelIngredients before it became a class.
    Definitions only.  The DMHaloModel that setup builds is the state: execute updates it in place and
    leaves it in the configuration for the next call.
    hmf, halomod, astropy and scipy's solve_ivp and root_scalar are arguments.
    f_Mead, get_halo_collapse_redshifts, Tk_cold_ratio and sigmaR_cc have the bodies of their namesakes in
    hmi.py and are the definitions of HmiModel.
    Simplified: the cosmology that execute puts among the profile parameters is no number and is left out;
    so are the cosmology, sigma_8, n, transfer and growth parameters of the DMHaloModel, which execute sets
    from the block before the loop and which the arguments [sigma8], [variance] and [lg_reads] get through
    the block; the class behind the name of a concentration relation (71-75) is left to the name; an option
    read with brackets has the type its use needs; concentration_halomod and acceleration_parameter are
    called by nothing. *)
From Coq Require Import ZArith.
From Coquelicot Require Import Coquelicot.
From Verif Require Import Base Quad FftModel HmiModel OptModel Spec ChainModel MiniModel.
Open Scope R_scope.

(** ** halo_model_utility.py *)

(** 49-53  _w. *)
Definition lg_w (a w0 wa : R) : R := w0 + (1 - a) * wa.
(** 55-59  _X_w. *)
Definition lg_X (a w0 wa : R) : R := fpow a (- 3 * (1 + w0 + wa)) * exp (- 3 * wa * (1 - a)).
(** 67-73  _Hubble2. *)
Definition lg_Hubble2 (a Om Ode Ok w0 wa : R) : R := Om * / a ^ 3 + Ode * lg_X a w0 wa + Ok * / a ^ 2.
(** 61-65  _Omega_m. *)
Definition lg_Omega_m (a Om Ode Ok w0 wa : R) : R := Om * / a ^ 3 / lg_Hubble2 a Om Ode Ok w0 wa.
(** 75-81  _AH. *)
Definition lg_AH (a Om Ode w0 wa : R) : R :=
  - (1/2) * (Om * / a ^ 3 + (1 + 3 * lg_w a w0 wa) * Ode * lg_X a w0 wa).

(** 83-111  get_growth_interpolator: what is handed to solve_ivp; [w0] and [wa] are those of the
    cosmology, -1 and 0 when it has none. *)
Section LegacyGrowth.
  Variable c : cosmo.
  Variables w0 wa : R.
  Definition lg_Om : R := co_Om0 c + co_Onu0 c.
  Definition lg_Ode : R := 1 - lg_Om.
  Definition lg_f : R := 1 - lg_Omega_m (/ 10000) lg_Om lg_Ode (co_Ok0 c) w0 wa.
  Definition lg_d_init : R := fpow (/ 10000) (1 - 3 * lg_f / 5).
  Definition lg_v_init : R := (1 - 3 * lg_f / 5) * fpow (/ 10000) (- 3 * lg_f / 5).
  Definition lg_rhs (a d v : R) : R * R :=
    let fv := - (2 + lg_AH a lg_Om lg_Ode w0 wa / lg_Hubble2 a lg_Om lg_Ode (co_Ok0 c) w0 wa) * v / a in
    let fd := 3 / 2 * lg_Omega_m a lg_Om lg_Ode (co_Ok0 c) w0 wa * d / a ^ 2 in
    (v, fv + fd).
End LegacyGrowth.

(** 147-157  get_accumulated_growth: quad gives the value and its error, numpy adds the value of the
    growth function to both, and the first is kept. *)
Definition lg_accumulated (a : R) (g : R -> R) : R :=
  let missing := g (/ 10000) in
  let pair := (RInt (fun t => g t / t) (/ 10000) a, 0) in
  fst (fst pair + missing, snd pair + missing).

(** 163-178  dc_Mead. *)
Definition lg_dc_Mead (a Om f_nu g G : R) : R :=
  (1 + f_Mead (g / a) (G / a) (-69/10000) (-208/10000) (312/10000) (21/10000) * log10 Om ^ 1
     + f_Mead (g / a) (G / a) (1/10000) (-647/10000) (-417/10000) (646/10000) * log10 Om ^ 0)
  * (3 / 20 * fpow (12 * PI) (2 / 3)) * (1 - 41/1000 * f_nu).
(** 180-195  Dv_Mead. *)
Definition lg_Dv_Mead (a Om f_nu g G : R) : R :=
  (1 + f_Mead (g / a) (G / a) (-79/100) (-1017/100) (251/100) (651/100) * log10 Om ^ 1
     + f_Mead (g / a) (G / a) (-189/100) (38/100) (188/10) (-1587/100) * log10 Om ^ 2)
  * (18 * PI ^ 2) * (1 + 763/1000 * f_nu).

(** ** setup *)
Inductive lg_mead := NoFeedback | Feedback.
Record lg_config := {
  lc_z : list R;
  lc_mass : list R;
  lc_mdef : string;
  lc_overdensity : R;
  lc_delta_c : R;
  lc_mead : option lg_mead;
  lc_nk : nat;
  lc_values : string }.

(** 53-60  mead_correction_map.get. *)
Definition lg_correction (s : string) : option lg_mead :=
  if String.eqb s "mead2020" then Some NoFeedback
  else if String.eqb s "mead2020_feedback" then Some Feedback else None.

(** 20-123  setup: the configuration and the DMHaloModel.  [masses] is hmf's grid of masses, [prof_par0]
    the parameters of the profile model before any is set. *)
Definition lg_setup (masses : R -> R -> R -> list R) (prof_par0 : dict) (missing wrong : string) (o : options)
  : res (lg_config * hpar) :=
  mn <- get_double missing wrong o "log_mass_min" None ;;
  mx <- get_double missing wrong o "log_mass_max" None ;;
  nm <- get_int missing wrong o "nmass" None ;;
  dm <- (if Z.eqb nm 0 then Err "ZeroDivisionError"%string else Ok ((mx - mn) / IZR nm)) ;;
  z0 <- get_double missing wrong o "zmin" None ;;
  z1 <- get_double missing wrong o "zmax" None ;;
  nz <- get_int missing wrong o "nz" None ;;
  nz <- (if Z.ltb nz 0 then Err "ValueError"%string else Ok (Z.to_nat nz)) ;;
  nk <- get_int missing wrong o "nk" None ;;
  prof <- get_string missing wrong o "profile" (Some "NFW"%string) ;;
  vals <- get_string missing wrong o "profile_value_name" (Some "profile_parameters"%string) ;;
  hm <- get_string missing wrong o "hmf_model" None ;;
  md <- get_string missing wrong o "mdef_model" None ;;
  od <- get_double missing wrong o "overdensity" None ;;
  cm <- get_string missing wrong o "cm_model" None ;;
  dc <- get_double missing wrong o "delta_c" None ;;
  bm <- get_string missing wrong o "bias_model" None ;;
  um <- get_string missing wrong o "use_mead2020_corrections" (Some "None"%string) ;;
  let mead := lg_correction um in
  let mp := if String.eqb md "SOVirial" then [] else [("overdensity"%string, od)] in
  let mdef := match mead with Some _ => "SOVirial"%string | None => md end in
  Ok ({| lc_z := map (linspace z0 z1 nz) (seq 0 nz); lc_mass := masses mn mx dm; lc_mdef := mdef;
         lc_overdensity := od; lc_delta_c := dc; lc_mead := mead; lc_nk := Z.to_nat nk; lc_values := vals |},
      {| hp_z := 0; hp_mdef := mdef;
         hp_mdef_par := match mead with Some _ => [] | None => mp end;
         hp_delta_c := dc;
         hp_hmf := match mead with Some _ => "ST"%string | None => hm end;
         hp_bias := match mead with Some _ => "ST99"%string | None => bm end;
         hp_noconv := match mead with Some _ => true | None => false end;
         hp_prof := prof; hp_prof_par := prof_par0;
         hp_conc := match mead with Some _ => "Duffy08"%string | None => cm end;
         hp_conc_par := [] |}).

(** ** execute *)

(** What execute reads before it touches the DMHaloModel (138-196). *)
Record lg_input := {
  li_cosmo : cosmo;
  li_norm_cen : R;
  li_norm_sat : R;
  li_eta_cen : R;
  li_eta_sat : R;
  li_k : list R }.

(** What is read off the DMHaloModel, which also knows the cosmology of the block. *)
Record lg_reads := {
  rd_cm : hpar -> list R;                        (* cmz_relation *)
  rd_u : hpar -> option (list R) -> list (list R); (* halo_profile.u(k, m, c=), one row per wavenumber *)
  rd_rs : hpar -> list R;                        (* halo_profile._rs_from_m(m) *)
  rd_rvir : hpar -> list R;                      (* halo_profile.halo_mass_to_radius(m) *)
  rd_overdensity : hpar -> R;                    (* halo_overdensity_mean *)
  rd_nu : hpar -> list R;
  rd_dndlnm : hpar -> list R;
  rd_mean0 : hpar -> R;                          (* mean_density0 *)
  rd_mean : hpar -> R;                           (* mean_density *)
  rd_bias : hpar -> list R;
  rd_neff : hpar -> R;
  rd_s8 : hpar -> R }.

(** The DMHaloModel while the central and while the satellite quantities are read, and the
    concentrations handed to the profile in the corrected case. *)
Record lg_row := { ro_cen : hpar; ro_sat : hpar; ro_conc : option (list R * list R) }.

Section Execute.
  Variable dset : dict -> dict -> dict.
  Variable mset : string -> string -> dict -> dict.
  Variable astro : list R -> cosmo.            (* Flatw0waCDM *)
  Variable growth : cosmo -> R -> R.           (* get_growth_interpolator *)
  Variable root : (R -> R) -> option R.        (* root_scalar(bracket=(1e-3, 1)) *)
  Variable sigma8 : dblock -> hpar -> R.       (* DM_hmf.sigma8_z *)
  Variable variance : dblock -> hpar -> R -> R. (* normalised_filter.sigma at the radius of a mass *)
  Variable rd : dblock -> list R -> lg_reads.  (* given the block and the wavenumbers *)
  Variable cfg : lg_config.

  (** 138-196  the readings. *)
  Definition lg_read (b : dblock) : res lg_input :=
    args <- run_arguments b ;;
    ns <- number b "n_s" ;; s8 <- number b "sigma_8" ;;
    nc <- block_num b (lc_values cfg) "norm_cen" ;; nt <- block_num b (lc_values cfg) "norm_sat" ;;
    ec <- block_num b (lc_values cfg) "eta_cen" ;; et <- block_num b (lc_values cfg) "eta_sat" ;;
    ks <- array b "matter_power_lin" "k_h" ;;
    k <- (match ks with
          | [] => Err "IndexError"%string
          | k0 :: _ => Ok (map (logspace (log10 k0) (log10 (last ks k0)) (lc_nk cfg)) (seq 0 (lc_nk cfg)))
          end) ;;
    tk <- array b "matter_power_transfer_func" "k_h" ;; tf <- array b "matter_power_transfer_func" "t_k" ;;
    gz <- array b "growth_parameters" "z" ;; gf <- array b "growth_parameters" "d_z" ;;
    Ok {| li_cosmo := astro args; li_norm_cen := nc; li_norm_sat := nt; li_eta_cen := ec; li_eta_sat := et; li_k := k |}.

  (** DM_hmf.update(z=, delta_c=, mdef_model=, mdef_params=). *)
  Definition lg_upd_mdef (z dc : R) (m : string) (mp : dict) (x : hpar) : hpar :=
    {| hp_z := z; hp_mdef := m; hp_mdef_par := dset (mset (hp_mdef x) m (hp_mdef_par x)) mp;
       hp_delta_c := dc; hp_hmf := hp_hmf x; hp_bias := hp_bias x; hp_noconv := hp_noconv x;
       hp_prof := hp_prof x; hp_prof_par := hp_prof_par x; hp_conc := hp_conc x; hp_conc_par := hp_conc_par x |}.
  (** DM_hmf.update(halo_profile_params=). *)
  Definition lg_upd_prof (pp : dict) (x : hpar) : hpar :=
    {| hp_z := hp_z x; hp_mdef := hp_mdef x; hp_mdef_par := hp_mdef_par x;
       hp_delta_c := hp_delta_c x; hp_hmf := hp_hmf x; hp_bias := hp_bias x; hp_noconv := hp_noconv x;
       hp_prof := hp_prof x; hp_prof_par := dset (hp_prof_par x) pp; hp_conc := hp_conc x; hp_conc_par := hp_conc_par x |}.
  (** DM_hmf.update(z=, delta_c=, ...). *)
  Definition lg_upd_z (z dc : R) (x : hpar) : hpar :=
    {| hp_z := z; hp_mdef := hp_mdef x; hp_mdef_par := hp_mdef_par x;
       hp_delta_c := dc; hp_hmf := hp_hmf x; hp_bias := hp_bias x; hp_noconv := hp_noconv x;
       hp_prof := hp_prof x; hp_prof_par := hp_prof_par x; hp_conc := hp_conc x; hp_conc_par := hp_conc_par x |}.

  (** 239-243  norm_cen of the corrected case. *)
  Definition lg_norm (m : lg_mead) (b : dblock) (z : R) : res R :=
    match m with
    | NoFeedback => Ok (5196/1000)
    | Feedback =>
        t <- block_num b "halo_model_parameters" "logT_AGN" ;;
        let theta := t - 78/10 in
        Ok (5196/1000 / 4 * ((344/100 - 496/1000 * theta) * pow10 (z * (- (671/10000) - 371/10000 * theta))))
    end.
  (** halo_model_utility.py 22-41  over the masses. *)
  Fixpoint lg_collapse (g sigma : R -> R) (dc z : R) (ms : list R) : res (list R) :=
    match ms with
    | [] => Ok []
    | m :: t => zf <- collapse_redshift g sigma root dc z m ;; r <- lg_collapse g sigma dc z t ;; Ok (zf :: r)
    end.
  (** 245-247  the concentrations of the corrected case. *)
  Definition lg_conc (norm z : R) (zf : list R) : list R := map (fun f => norm * (1 + f) / (1 + z)) zf.

  (** 210-260  one turn of the corrected case: the DMHaloModel afterwards and the row, or the exception. *)
  Definition lg_turn_mead (m : lg_mead) (b : dblock) (i : lg_input) (x : hpar) (z : R) : hpar * res lg_row :=
    let c := li_cosmo i in
    let a := scale_factor z in
    let g := growth c a in
    let G := lg_accumulated a (growth c) in
    let dc := lg_dc_Mead a (co_Om c z + co_Onu c z) (co_Onu0 c / (co_Om0 c + co_Onu0 c)) g G in
    let dv := lg_Dv_Mead a (co_Om c z + co_Onu c z) (co_Onu0 c / (co_Om0 c + co_Onu0 c)) g G in
    let x1 := lg_upd_mdef z dc "SOVirial_Mead" [("overdensity"%string, dv)] x in
    let eta := 1281/10000 * Rpower (sigma8 b x1) (- 3644/10000) in
    match (n <- lg_norm m b z ;; zf <- lg_collapse (growth c) (variance b x1) dc z (lc_mass cfg) ;; Ok (n, zf)) with
    | Err e => (x1, Err e)
    | Ok (n, zf) =>
        let x2 := lg_upd_prof [("eta_bloat"%string, eta)] x1 in
        let x3 := lg_upd_prof [("eta_bloat"%string, li_eta_sat i)] x2 in
        (x3, Ok {| ro_cen := x2; ro_sat := x3; ro_conc := Some (lg_conc n z zf, lg_conc (li_norm_sat i) z zf) |})
    end.

  (** 262-289  one turn of the other case. *)
  Definition lg_turn_plain (i : lg_input) (x : hpar) (z : R) : hpar * res lg_row :=
    let dc := if String.eqb (lc_mdef cfg) "SOVirial"
              then 3 / 20 * fpow (12 * PI) (2 / 3) * (1 + 123/10000 * log10 (co_Om (li_cosmo i) z))
              else lc_delta_c cfg in
    let x1 := upd_par dset [("eta_bloat"%string, li_eta_cen i)] [("norm"%string, li_norm_cen i)] (lg_upd_z z dc x) in
    let x2 := upd_par dset [("eta_bloat"%string, li_eta_sat i)] [("norm"%string, li_norm_sat i)] x1 in
    (x2, Ok {| ro_cen := x1; ro_sat := x2; ro_conc := None |}).

  Definition lg_turn (b : dblock) (i : lg_input) (x : hpar) (z : R) : hpar * res lg_row :=
    match lc_mead cfg with
    | Some m => lg_turn_mead m b i x z
    | None => lg_turn_plain i x z
    end.

  (** 209-309  the loop. *)
  Fixpoint lg_loop (b : dblock) (i : lg_input) (x : hpar) (zs : list R) : hpar * res (list lg_row) :=
    match zs with
    | [] => (x, Ok [])
    | z :: t =>
        match lg_turn b i x z with
        | (x', Err e) => (x', Err e)
        | (x', Ok r) =>
            match lg_loop b i x' t with
            | (x'', Ok rs) => (x'', Ok (r :: rs))
            | (x'', Err e) => (x'', Err e)
            end
        end
    end.

  (** nfw / np.expand_dims(nfw[0, :], 0) *)
  Definition lg_normalise (u : list (list R)) : list (list R) :=
    let u0 := hd [] u in map (fun r => map (fun m => nth m r 0 / nth m u0 0) (seq 0 (List.length r))) u.

  (** What is written (311-343), next to the axes z, m_h and k_h. *)
  Record lg_output := {
    out_k : list R;                              (* fourier_nfw_profile k_h *)
    out_c_cen : list (list R);                   (* concentration_m c *)
    out_c_sat : list (list R);                   (* concentration_sat c *)
    out_rs_cen : list (list R);                  (* nfw_scale_radius_m rs *)
    out_rs_sat : list (list R);                  (* nfw_scale_radius_sat rs *)
    out_rvir_cen : list R;                       (* virial_radius rvir_m *)
    out_rvir_sat : list R;                       (* virial_radius rvir_sat *)
    out_u_cen : list (list (list R));            (* fourier_nfw_profile ukm *)
    out_u_sat : list (list (list R));            (* fourier_nfw_profile uksat *)
    out_mean0 : R;                               (* density mean_density0 *)
    out_rho_crit : R;                            (* density rho_crit *)
    out_mean : list R;                           (* density mean_density_z *)
    out_rho_halo : list R;                       (* density rho_halo *)
    out_dndlnm : list (list R);                  (* hmf dndlnmh *)
    out_nu : list (list R);                      (* hmf nu *)
    out_neff : list R;                           (* hmf neff *)
    out_s8 : list R;                             (* hmf sigma8_z *)
    out_bias : list (list R);                    (* halobias b_hb *)
    out_fnu : R }.                               (* cosmological_parameters fnu *)

  (** 249-346  the quantities of the rows; the ones of 291-309 are read with the satellite settings. *)
  Definition lg_tables (b : dblock) (i : lg_input) (rows : list lg_row) : res lg_output :=
    let q := rd b (li_k i) in
    match rows with
    | [] => Err "IndexError"
    | r0 :: _ =>
        let rl := last rows r0 in
        Ok {| out_k := li_k i;
              out_c_cen := map (fun r => match ro_conc r with Some p => fst p | None => rd_cm q (ro_cen r) end) rows;
              out_c_sat := map (fun r => match ro_conc r with Some p => snd p | None => rd_cm q (ro_sat r) end) rows;
              out_rs_cen := map (fun r => rd_rs q (ro_cen r)) rows;
              out_rs_sat := map (fun r => rd_rs q (ro_sat r)) rows;
              out_rvir_cen := rd_rvir q (ro_cen r0);
              out_rvir_sat := rd_rvir q (ro_sat r0);
              out_u_cen := map (fun r => lg_normalise (rd_u q (ro_cen r) (option_map fst (ro_conc r)))) rows;
              out_u_sat := map (fun r => lg_normalise (rd_u q (ro_sat r) (option_map snd (ro_conc r)))) rows;
              out_mean0 := rd_mean0 q (ro_sat rl);
              out_rho_crit := rd_mean0 q (ro_sat rl) / co_Om0 (li_cosmo i);
              out_mean := map (fun r => rd_mean q (ro_sat r)) rows;
              out_rho_halo := map (fun r => rd_overdensity q (ro_sat r) * rd_mean0 q (ro_sat r)) rows;
              out_dndlnm := map (fun r => rd_dndlnm q (ro_sat r)) rows;
              out_nu := map (fun r => map sqrt (rd_nu q (ro_sat r))) rows;
              out_neff := map (fun r => rd_neff q (ro_sat r)) rows;
              out_s8 := map (fun r => rd_s8 q (ro_sat r)) rows;
              out_bias := map (fun r => rd_bias q (ro_sat r)) rows;
              out_fnu := co_Onu0 (li_cosmo i) / co_Om0 (li_cosmo i) |}
    end.

  (** 125-350  execute: the DMHaloModel it leaves behind and what it writes. *)
  Definition lg_execute (x : hpar) (b : dblock) : hpar * res lg_output :=
    match lg_read b with
    | Err e => (x, Err e)
    | Ok i =>
        match lg_loop b i x (lc_z cfg) with
        | (x', Err e) => (x', Err e)
        | (x', Ok rows) => (x', lg_tables b i rows)
        end
    end.

  (** A chain: execute on one block after the other with the same configuration. *)
  Fixpoint lg_chain (x : hpar) (bs : list dblock) : list (res lg_output) :=
    match bs with
    | [] => []
    | b :: t => let '(x', r) := lg_execute x b in r :: lg_chain x' t
    end.
End Execute.
