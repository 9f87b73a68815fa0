(** The attributes of class Spectra (pk.py) with its bases CosmologyBase and
    HaloModelIngredients (hmi.py): for every cached quantity, which parameters and which
    other quantities its body reads, in order, and on which parameter tests that depends.

    One entry per @cached_quantity / @cached_property, each under the file and lines of
    its definition.  Simplifications: helper methods (I_NL, compute_..., fg, dewiggle_plin,
    ...) are inlined; a second read of the same attribute in one body is dropped, because
    it returns the value just read; loops and comprehensions are read as executed at least
    once; bodies are followed up to a [raise].  In fstar_mm (pk.py:629-641) the two
    branches are merged: mass and z_vec are read only if hod_mm is None, and hod_mm itself
    reads them otherwise. *)
From Coq Require Import String List.
From Verif Require Import CacheModel.
Import ListNotations.
Open Scope string_scope.

(** Parameters declared @parameter('switch') or @parameter('model'):
pk.py:218 nonlinear_mode,
    pk.py:278 response,
    pk.py:404 hod_model,
    pk.py:415 poisson_model. *)
Definition spectra_switches : list string := ["nonlinear_mode"; "response"; "hod_model"; "poisson_model"].

(** The remaining parameters, declared @parameter('param') in hmi.py and pk.py. *)
Definition spectra_params : list string :=
  ["z_vec"; "h0"; "omega_c"; "omega_b"; "w0"; "wa"; "n_s"; "tcmb"; "Neff"; "m_nu";
   "sigma_8"; "log10T_AGN"; "hmcode_ingredients"; "k_vec"; "lnk_min"; "lnk_max"; "dlnk";
   "Mmin"; "Mmax"; "dlog10m"; "mdef_model"; "hmf_model"; "bias_model";
   "halo_concentration_model_dm"; "halo_concentration_model_sat";
   "halo_profile_model_dm"; "halo_profile_model_sat"; "transfer_model";
   "transfer_params"; "growth_model"; "growth_params"; "norm_cen"; "norm_sat"; "eta_cen";
   "eta_sat"; "delta_c"; "overdensity"; "mb"; "beta_nl"; "dewiggle"; "matter_power_lin";
   "matter_power_nl"; "one_halo_ktrunc"; "two_halo_ktrunc"; "hod_settings_mm";
   "pointmass"; "compute_observable"; "poisson_params"; "hod_params"; "hod_settings";
   "obs_settings"; "t_eff"; "one_halo_ktrunc_ia"; "two_halo_ktrunc_ia"; "align_params"].

(** The parameters of kind 'param' on whose value some body branches. *)
Definition spectra_selectors : list string := ["hmcode_ingredients"; "mdef_model"; "beta_nl"; "dewiggle"; "matter_power_lin";
   "matter_power_nl"; "pointmass"; "compute_observable"].

(** functools.cached_property attributes: hmi.py:250-253. *)
Definition spectra_permanent : list string := ["omega_m"].

Definition spectra_bodies : list (string * list step) :=
  [(* hmi.py:230-248 *)
   ("cosmo_model",
    [P "h0"; P "omega_b"; P "omega_c"; P "Neff"; P "m_nu"; P "tcmb"; P "w0"; P "wa"]);
   (* hmi.py:251-253 *)
   ("omega_m",
    [Q "cosmo_model"]);
   (* hmi.py:256-265 *)
   ("scale_factor",
    [P "z_vec"]);
   (* hmi.py:344-380 *)
   ("get_mead_growth_fnc",
    [Q "cosmo_model"]);
   (* hmi.py:383-392 *)
   ("get_mead_growth",
    [Q "get_mead_growth_fnc"; Q "scale_factor"]);
   (* hmi.py:395-415 *)
   ("get_mead_accumulated_growth",
    [Q "get_mead_growth_fnc"; Q "scale_factor"]);
   (* hmi.py:439-469 *)
   ("dc_Mead",
    [Q "scale_factor"; Q "cosmo_model"; P "z_vec"; Q "get_mead_growth";
     Q "get_mead_accumulated_growth"]);
   (* hmi.py:472-501 *)
   ("Dv_Mead",
    [Q "scale_factor"; Q "cosmo_model"; P "z_vec"; Q "get_mead_growth";
     Q "get_mead_accumulated_growth"]);
   (* hmi.py:855-864 *)
   ("_norm_c",
    [P "norm_cen"; P "z_vec"]);
   (* hmi.py:867-876 *)
   ("_norm_s",
    [P "norm_sat"; P "z_vec"]);
   (* hmi.py:879-889 *)
   ("_eta_c",
    [P "eta_cen"; P "z_vec"]);
   (* hmi.py:892-901 *)
   ("_eta_s",
    [P "eta_sat"; P "z_vec"]);
   (* hmi.py:904-924 *)
   ("_delta_c_mod",
    [If "hmcode_ingredients" ["mead2020_feedback"; "mead2020"]
      [Q "dc_Mead"]
      [If "mdef_model" ["SOVirial"]
        [Q "cosmo_model"; P "z_vec"]
        [P "delta_c"; P "z_vec"]]]);
   (* hmi.py:927-939 *)
   ("_mdef_mod",
    [If "hmcode_ingredients" ["mead2020_feedback"; "mead2020"]
      []
      [P "mdef_model"]]);
   (* hmi.py:942-954 *)
   ("_hmf_mod",
    [If "hmcode_ingredients" ["mead2020_feedback"; "mead2020"]
      []
      [P "hmf_model"]]);
   (* hmi.py:957-969 *)
   ("_bias_mod",
    [If "hmcode_ingredients" ["mead2020_feedback"; "mead2020"]
      []
      [P "bias_model"]]);
   (* hmi.py:972-993 *)
   ("_halo_concentration_mod_dm",
    [If "hmcode_ingredients" ["mead2020_feedback"; "mead2020"]
      []
      [P "halo_concentration_model_dm"]]);
   (* hmi.py:996-1016 *)
   ("_halo_concentration_mod_sat",
    [If "hmcode_ingredients" ["mead2020_feedback"; "mead2020"]
      []
      [P "halo_concentration_model_sat"]]);
   (* hmi.py:1019-1040 *)
   ("mdef_params",
    [If "hmcode_ingredients" ["mead2020_feedback"; "mead2020"]
      [Q "Dv_Mead"]
      [P "z_vec"; If "mdef_model" ["SOVirial"]
        []
        [P "overdensity"]]]);
   (* hmi.py:1043-1053 *)
   ("halo_profile_params",
    [Q "cosmo_model"]);
   (* hmi.py:1056-1064 *)
   ("disable_mass_conversion",
    [P "hmcode_ingredients"]);
   (* hmi.py:1067-1087 *)
   ("K",
    [If "hmcode_ingredients" ["mead2020"]
      [P "z_vec"]
      [If "hmcode_ingredients" ["mead2020_feedback"]
        [P "log10T_AGN"; P "z_vec"]
        [P "z_vec"]]]);
   (* hmi.py:1090-1215 *)
   ("_hmf_generator",
    [P "lnk_min"; P "lnk_max"; P "dlnk"; P "Mmin"; P "Mmax"; P "dlog10m"; Q "_hmf_mod";
     Q "_mdef_mod"; Q "disable_mass_conversion"; Q "_bias_mod"; P "halo_profile_model_dm";
     Q "halo_profile_params"; Q "_halo_concentration_mod_dm"; Q "cosmo_model"; P "sigma_8";
     P "n_s"; P "transfer_model"; P "transfer_params"; P "growth_model"; P "growth_params";
     Q "mdef_params"; Q "_delta_c_mod";
     If "hmcode_ingredients" ["mead2020_feedback"; "mead2020"]
      [P "z_vec"; Q "_norm_c"; Q "K"; Q "_norm_s"; P "halo_profile_model_sat";
       Q "_halo_concentration_mod_sat"]
      [P "z_vec"; Q "_eta_c"; Q "_norm_c"; Q "_eta_s"; Q "_norm_s";
       P "halo_profile_model_sat"; Q "_halo_concentration_mod_sat"]]);
   (* hmi.py:1218-1222 *)
   ("_hmf_cen",
    [Q "_hmf_generator"]);
   (* hmi.py:1225-1229 *)
   ("_hmf_sat",
    [Q "_hmf_generator"]);
   (* hmi.py:1232-1241 *)
   ("mass",
    [Q "_hmf_cen"]);
   (* hmi.py:1244-1253 *)
   ("power",
    [Q "_hmf_cen"]);
   (* hmi.py:1256-1265 *)
   ("nonlinear_power",
    [Q "_hmf_cen"]);
   (* hmi.py:1268-1277 *)
   ("kh",
    [Q "_hmf_cen"]);
   (* hmi.py:1280-1289 *)
   ("halo_overdensity_mean",
    [Q "_hmf_cen"]);
   (* hmi.py:1292-1301 *)
   ("nu",
    [Q "_hmf_cen"]);
   (* hmi.py:1304-1313 *)
   ("dndlnm",
    [Q "_hmf_cen"]);
   (* hmi.py:1316-1325 *)
   ("mean_density0",
    [Q "_hmf_cen"]);
   (* hmi.py:1328-1337 *)
   ("mean_density_z",
    [Q "_hmf_cen"]);
   (* hmi.py:1340-1351 *)
   ("rho_halo",
    [Q "_hmf_cen"]);
   (* hmi.py:1354-1363 *)
   ("halo_bias",
    [Q "_hmf_cen"]);
   (* hmi.py:1366-1375 *)
   ("neff",
    [Q "_hmf_cen"]);
   (* hmi.py:1378-1387 *)
   ("sigma8_z",
    [Q "_hmf_cen"]);
   (* hmi.py:1390-1401 *)
   ("fnu",
    [P "z_vec"; Q "cosmo_model"]);
   (* hmi.py:1404-1413 *)
   ("conc_cen",
    [Q "_hmf_cen"]);
   (* hmi.py:1416-1425 *)
   ("nfw_cen",
    [Q "_hmf_cen"; P "k_vec"]);
   (* hmi.py:1428-1437 *)
   ("u_dm",
    [Q "nfw_cen"]);
   (* hmi.py:1440-1449 *)
   ("r_s_cen",
    [Q "_hmf_cen"]);
   (* hmi.py:1452-1463 *)
   ("rvir_cen",
    [Q "_hmf_cen"]);
   (* hmi.py:1466-1475 *)
   ("conc_sat",
    [Q "_hmf_sat"]);
   (* hmi.py:1478-1487 *)
   ("nfw_sat",
    [Q "_hmf_sat"; P "k_vec"]);
   (* hmi.py:1490-1499 *)
   ("u_sat",
    [Q "nfw_sat"]);
   (* hmi.py:1502-1511 *)
   ("r_s_sat",
    [Q "_hmf_sat"]);
   (* hmi.py:1514-1525 *)
   ("rvir_sat",
    [Q "_hmf_sat"]);
   (* hmi.py:1528-1537 *)
   ("growth_factor",
    [Q "_hmf_cen"; P "z_vec"]);
   (* pk.py:517-543 *)
   ("calc_bnl",
    [Q "mass"; P "z_vec"; P "k_vec"; P "h0"; P "sigma_8"; P "omega_b"; P "omega_c";
     Q "omega_m"; P "n_s"; P "w0"]);
   (* pk.py:426-437 *)
   ("_beta_nl_array",
    [If "nonlinear_mode" ["bnl"]
      [If "beta_nl" ["None"]
        [Q "calc_bnl"]
        []]
      [P "beta_nl"]]);
   (* pk.py:2689-2690 *)
   ("Tk_EH_nowiggle_lnt",
    [Q "cosmo_model"]);
   (* pk.py:440-470 *)
   ("_pk_lin",
    [If "matter_power_lin" ["None"]
      [Q "kh"; Q "power"; P "k_vec"]
      [];
     If "nonlinear_mode" ["hmcode"]
      [P "k_vec"; P "n_s"; Q "Tk_EH_nowiggle_lnt"]
      [If "dewiggle" ["True"]
        [P "k_vec"; P "n_s"; Q "Tk_EH_nowiggle_lnt"]
        []]; P "z_vec"; P "k_vec"]);
   (* pk.py:473-498 *)
   ("_pk_nl",
    [P "matter_power_nl"; If "nonlinear_mode" ["fortuna"]
      [If "matter_power_nl" ["None"]
        [Q "kh"; Q "nonlinear_power"; P "k_vec"]
        []; P "z_vec"; P "k_vec"]
      [If "response" ["True"]
        [If "matter_power_nl" ["None"]
          [Q "kh"; Q "nonlinear_power"; P "k_vec"]
          []; P "z_vec"; P "k_vec"]
        []]]);
   (* pk.py:501-514 *)
   ("peff",
    [If "nonlinear_mode" ["fortuna"]
      [P "t_eff"; Q "_pk_nl"; Q "_pk_lin"]
      []]);
   (* pk.py:546-562 *)
   ("I12",
    [If "nonlinear_mode" ["bnl"]
      [Q "halo_bias"; Q "dndlnm"; Q "_beta_nl_array"; Q "mass"]
      []]);
   (* pk.py:565-581 *)
   ("I21",
    [If "nonlinear_mode" ["bnl"]
      [Q "halo_bias"; Q "dndlnm"; Q "_beta_nl_array"; Q "mass"]
      []]);
   (* pk.py:584-600 *)
   ("I22",
    [If "nonlinear_mode" ["bnl"]
      [Q "halo_bias"; Q "dndlnm"; Q "_beta_nl_array"; Q "mass"]
      []]);
   (* pk.py:603-626 *)
   ("hod_mm",
    [P "hod_model"; If "hmcode_ingredients" ["fit"]
      [If "hod_model" ["Cacciato"]
        [Q "cosmo_model"; Q "mass"; Q "dndlnm"; Q "halo_bias"; P "z_vec";
         P "hod_settings_mm"; P "hod_params"]
        []]
      []]);
   (* pk.py:629-641 *)
   ("fstar_mm",
    [Q "hod_mm"; P "z_vec"; Q "mass"]);
   (* pk.py:708-723 *)
   ("matter_profile",
    [Q "mass"; Q "mean_density0"; Q "u_dm"]);
   (* pk.py:726-743 *)
   ("matter_profile_2h",
    [Q "mass"; Q "mean_density0"; Q "u_dm"]);
   (* pk.py:788-804 *)
   ("matter_profile_with_feedback",
    [Q "mass"; Q "mean_density0"; Q "u_dm"; P "z_vec"; P "log10T_AGN"; P "omega_c";
     Q "omega_m"; P "omega_b"]);
   (* pk.py:874-891 *)
   ("one_halo_truncation",
    [P "one_halo_ktrunc"; P "k_vec"]);
   (* pk.py:894-913 *)
   ("two_halo_truncation",
    [P "two_halo_ktrunc"; P "k_vec"]);
   (* pk.py:916-932 *)
   ("one_halo_truncation_ia",
    [P "one_halo_ktrunc_ia"; P "k_vec"]);
   (* pk.py:935-951 *)
   ("two_halo_truncation_ia",
    [P "two_halo_ktrunc_ia"; P "k_vec"]);
   (* pk.py:1128-1143 *)
   ("missing_mass_integral",
    [Q "mass"; Q "halo_bias"; Q "dndlnm"; Q "mean_density0"]);
   (* pk.py:1146-1155 *)
   ("A_term",
    [Q "missing_mass_integral"]);
   (* pk.py:1158-1178 *)
   ("Im_term",
    [Q "mass"; Q "u_dm"; Q "halo_bias"; Q "dndlnm"; Q "mean_density0"; Q "A_term"]);
   (* pk.py:1393-1400 *)
   ("_trapezoidal_weights",
    [Q "mass"]);
   (* pk.py:1506-1526 *)
   ("poisson_func",
    [P "poisson_model"; Q "mass"; P "poisson_params"]);
   (* pk.py:1529-1541 *)
   ("power_spectrum_lin",
    [Q "_pk_lin"]);
   (* pk.py:1544-1630 *)
   ("_power_spectrum_mm",
    [If "hmcode_ingredients" ["mead2020_feedback"]
      [Q "matter_profile_with_feedback"]
      [If "hmcode_ingredients" ["mead2020"]
        [Q "matter_profile"]
        [If "hmcode_ingredients" ["fit"]
          [Q "fstar_mm"; Q "mass"; Q "mean_density0"; Q "u_dm"; P "z_vec"; P "mb";
           P "omega_c"; Q "omega_m"; P "omega_b"]
          [Q "matter_profile"]]]; If "nonlinear_mode" ["bnl"]
      [Q "matter_profile_2h"; Q "halo_bias"; Q "dndlnm"; Q "A_term"; Q "mean_density0";
       Q "_beta_nl_array"; Q "I12"; Q "I21"; Q "I22"; Q "mass"; Q "_trapezoidal_weights";
       Q "_pk_lin"; Q "Im_term"; Q "one_halo_truncation"]
      [If "nonlinear_mode" ["hmcode"]
        [If "hmcode_ingredients" ["mead2020_feedback"; "mead2020"]
          [Q "_pk_lin"; Q "sigma8_z"; P "k_vec"; Q "mass"; Q "dndlnm"; Q "neff"]
          []]
        [Q "_pk_lin"; Q "Im_term"; Q "two_halo_truncation"; Q "mass"; Q "dndlnm";
         Q "one_halo_truncation"]]]);
   (* pk.py:1633-1653 *)
   ("power_spectrum_mm",
    [If "response" ["True"]
      [Q "_pk_nl"]
      [Q "_power_spectrum_mm"]]);
   (* pk.py:1658-1675 *)
   ("hod",
    [P "hod_model"; Q "cosmo_model"; Q "mass"; Q "dndlnm"; Q "halo_bias"; P "z_vec";
     P "hod_settings"; P "hod_params"]);
   (* pk.py:1678-1687 *)
   ("fstar",
    [Q "hod"]);
   (* pk.py:1690-1699 *)
   ("mass_avg",
    [Q "hod"]);
   (* pk.py:1702-1723 *)
   ("obs",
    [P "hod_model"; If "hod_model" ["Cacciato"]
      [If "compute_observable" ["True"]
        [Q "cosmo_model"; Q "mass"; Q "dndlnm"; Q "halo_bias"; P "z_vec"; P "obs_settings";
         P "hod_params"]
        []]
      []]);
   (* pk.py:1726-1737 *)
   ("obs_func",
    [Q "obs"]);
   (* pk.py:1740-1751 *)
   ("obs_func_cen",
    [Q "obs"]);
   (* pk.py:1754-1765 *)
   ("obs_func_sat",
    [Q "obs"]);
   (* pk.py:1768-1779 *)
   ("obs_func_obs",
    [Q "obs"]);
   (* pk.py:1782-1793 *)
   ("obs_func_z",
    [Q "obs"]);
   (* pk.py:1796-1810 *)
   ("central_galaxy_profile",
    [Q "hod"; Q "u_sat"]);
   (* pk.py:1813-1827 *)
   ("satellite_galaxy_profile",
    [Q "hod"; Q "u_sat"]);
   (* pk.py:1853-1868 *)
   ("Ic_term",
    [Q "central_galaxy_profile"; Q "mass"; Q "dndlnm"; Q "halo_bias"]);
   (* pk.py:1871-1886 *)
   ("Is_term",
    [Q "satellite_galaxy_profile"; Q "mass"; Q "dndlnm"; Q "halo_bias"]);
   (* pk.py:1889-1978 *)
   ("power_spectrum_gg",
    [If "nonlinear_mode" ["bnl"]
      [Q "central_galaxy_profile"; Q "satellite_galaxy_profile"; Q "halo_bias"; Q "dndlnm";
       Q "A_term"; Q "mean_density0"; Q "_beta_nl_array"; Q "I12"; Q "I21"; Q "I22";
       Q "mass"; Q "_trapezoidal_weights"; Q "_pk_lin"; Q "Ic_term"; Q "Is_term"]
      [Q "_pk_lin"; Q "Ic_term"; Q "two_halo_truncation"; Q "Is_term"];
     Q "central_galaxy_profile"; Q "satellite_galaxy_profile"; Q "mass"; Q "dndlnm";
     Q "one_halo_truncation"; Q "poisson_func"; If "nonlinear_mode" ["bnl"]
      [Q "_pk_lin"]
      [];
     Q "Ic_term"; Q "Is_term"; If "response" ["True"]
      [Q "_pk_nl"; Q "_power_spectrum_mm"]
      []]);
   (* pk.py:1981-2071 *)
   ("power_spectrum_gm",
    [If "hmcode_ingredients" ["mead2020_feedback"]
      [Q "matter_profile_with_feedback"]
      [If "hmcode_ingredients" ["mead2020"]
        [Q "matter_profile"]
        [If "hmcode_ingredients" ["fit"]
          [Q "fstar"; Q "mass"; Q "mean_density0"; Q "u_dm"; P "z_vec"; P "mb";
           P "omega_c"; Q "omega_m"; P "omega_b"]
          [If "pointmass" ["True"]
            [Q "fstar"; Q "mass"; Q "mean_density0"; Q "u_dm"; P "z_vec"; P "mb";
             P "omega_c"; Q "omega_m"; P "omega_b"]
            [Q "matter_profile"]]]]; If "nonlinear_mode" ["bnl"]
      [Q "central_galaxy_profile"; Q "satellite_galaxy_profile"; Q "matter_profile_2h";
       Q "halo_bias"; Q "dndlnm"; Q "A_term"; Q "mean_density0"; Q "_beta_nl_array";
       Q "I12"; Q "I21"; Q "I22"; Q "mass"; Q "_trapezoidal_weights"; Q "_pk_lin";
       Q "Ic_term"; Q "Im_term"; Q "Is_term"]
      [Q "_pk_lin"; Q "Ic_term"; Q "Im_term"; Q "two_halo_truncation"; Q "Is_term"];
     Q "central_galaxy_profile"; Q "mass"; Q "dndlnm"; Q "one_halo_truncation";
     Q "satellite_galaxy_profile"; If "nonlinear_mode" ["bnl"]
      [Q "_pk_lin"]
      [];
     Q "Ic_term"; Q "Im_term"; Q "Is_term"; If "response" ["True"]
      [Q "_pk_nl"; Q "_power_spectrum_mm"]
      []]);
   (* pk.py:2076-2095 *)
   ("alignment_class",
    [P "align_params"; P "z_vec"; Q "mass"; Q "conc_cen"; Q "r_s_cen"; Q "rvir_cen"]);
   (* pk.py:2098-2102 *)
   ("beta_cen",
    [Q "alignment_class"]);
   (* pk.py:2105-2109 *)
   ("beta_sat",
    [Q "alignment_class"]);
   (* pk.py:2112-2116 *)
   ("mpivot_cen",
    [Q "alignment_class"]);
   (* pk.py:2119-2123 *)
   ("mpivot_sat",
    [Q "alignment_class"]);
   (* pk.py:2126-2130 *)
   ("alignment_gi",
    [Q "alignment_class"]);
   (* pk.py:2155-2159 *)
   ("C1",
    [Q "alignment_gi"]);
   (* pk.py:2133-2141 *)
   ("alignment_amplitude_2h",
    [Q "C1"; Q "mean_density0"; Q "growth_factor"]);
   (* pk.py:2144-2152 *)
   ("alignment_amplitude_2h_II",
    [Q "C1"; Q "mean_density0"; Q "growth_factor"]);
   (* pk.py:2162-2175 *)
   ("wkm_sat",
    [Q "alignment_class"; P "k_vec"; Q "mass"]);
   (* pk.py:2248-2271 *)
   ("central_alignment_profile",
    [Q "growth_factor"; Q "hod"; Q "C1"; Q "mass"; Q "beta_cen"; Q "mpivot_cen";
     Q "mass_avg"]);
   (* pk.py:2274-2297 *)
   ("satellite_alignment_profile",
    [Q "hod"; Q "wkm_sat"; Q "beta_sat"; Q "mpivot_sat"; Q "mass_avg"]);
   (* pk.py:2300-2321 *)
   ("Ic_align_term",
    [Q "central_alignment_profile"; Q "mass"; Q "dndlnm"; Q "halo_bias"; Q "A_term";
     Q "mean_density0"]);
   (* pk.py:2324-2345 *)
   ("Is_align_term",
    [Q "satellite_alignment_profile"; Q "mass"; Q "dndlnm"; Q "halo_bias"; Q "A_term";
     Q "mean_density0"]);
   (* pk.py:2348-2441 *)
   ("power_spectrum_mi",
    [If "hmcode_ingredients" ["mead2020_feedback"]
      [Q "matter_profile_with_feedback"]
      [If "hmcode_ingredients" ["mead2020"]
        [Q "matter_profile"]
        [If "hmcode_ingredients" ["fit"]
          [Q "fstar"; Q "mass"; Q "mean_density0"; Q "u_dm"; P "z_vec"; P "mb";
           P "omega_c"; Q "omega_m"; P "omega_b"]
          [If "pointmass" ["True"]
            [Q "fstar"; Q "mass"; Q "mean_density0"; Q "u_dm"; P "z_vec"; P "mb";
             P "omega_c"; Q "omega_m"; P "omega_b"]
            [Q "matter_profile"]]]]; If "nonlinear_mode" ["bnl"]
      [Q "central_alignment_profile"; Q "satellite_alignment_profile";
       Q "matter_profile_2h"; Q "halo_bias"; Q "dndlnm"; Q "A_term"; Q "mean_density0";
       Q "_beta_nl_array"; Q "I12"; Q "I21"; Q "I22"; Q "mass"; Q "_trapezoidal_weights";
       Q "_pk_lin"; Q "Is_align_term"; Q "Im_term"; Q "Ic_align_term"]
      [If "nonlinear_mode" ["fortuna"]
        [Q "hod"; Q "peff"; Q "alignment_amplitude_2h"; Q "two_halo_truncation_ia"]
        [Q "_pk_lin"; Q "Is_align_term"; Q "Im_term"; Q "two_halo_truncation_ia";
         Q "Ic_align_term"]];
     Q "satellite_alignment_profile"; Q "mass"; Q "dndlnm"; Q "one_halo_truncation_ia";
     If "nonlinear_mode" ["bnl"]
      [Q "_pk_lin"]
      []; If "response" ["True"]
      [Q "_pk_nl"; Q "_power_spectrum_mm"]
      []]);
   (* pk.py:2444-2564 *)
   ("power_spectrum_ii",
    [If "nonlinear_mode" ["bnl"]
      [Q "satellite_alignment_profile"; Q "halo_bias"; Q "dndlnm"; Q "A_term";
       Q "mean_density0"; Q "_beta_nl_array"; Q "I12"; Q "I21"; Q "I22"; Q "mass";
       Q "_trapezoidal_weights"; Q "central_alignment_profile"; Q "_pk_lin";
       Q "Is_align_term"; Q "Ic_align_term"]
      [If "nonlinear_mode" ["fortuna"]
        [Q "hod"; Q "peff"; Q "alignment_amplitude_2h_II"; Q "two_halo_truncation_ia"]
        [Q "_pk_lin"; Q "Is_align_term"; Q "two_halo_truncation_ia"; Q "Ic_align_term"]];
     Q "satellite_alignment_profile"; Q "mass"; Q "dndlnm"; Q "one_halo_truncation_ia";
     If "response" ["True"]
      [Q "_pk_nl"; Q "_power_spectrum_mm"]
      []]);
   (* pk.py:2567-2662 *)
   ("power_spectrum_gi",
    [If "nonlinear_mode" ["bnl"]
      [Q "central_alignment_profile"; Q "central_galaxy_profile"; Q "halo_bias";
       Q "dndlnm"; Q "A_term"; Q "mean_density0"; Q "_beta_nl_array"; Q "I12"; Q "I21";
       Q "I22"; Q "mass"; Q "_trapezoidal_weights"; Q "satellite_alignment_profile";
       Q "_pk_lin"; Q "Ic_term"; Q "Ic_align_term"; Q "Is_align_term"]
      [If "nonlinear_mode" ["fortuna"]
        [Q "peff"; Q "Ic_term"; Q "alignment_amplitude_2h"; Q "two_halo_truncation_ia"]
        [Q "_pk_lin"; Q "Ic_term"; Q "Ic_align_term"; Q "two_halo_truncation_ia";
         Q "Is_align_term"]];
     Q "central_galaxy_profile"; Q "satellite_alignment_profile"; Q "mass"; Q "dndlnm";
     Q "one_halo_truncation_ia"; If "response" ["True"]
      [Q "_pk_nl"; Q "_power_spectrum_mm"]
      []])].

Definition spectra_shape (q : string) : sh := shape_of spectra_bodies q.
