(** Vocabulary for the keyword arguments of the pipeline module. *)
From Coq Require Import ZArith.
From Verif Require Import Base Interp HodModel PkModel AddModel PipeModel OptModel OptSpec KwModel.
Open Scope string_scope.

(** ** Which parameters of Spectra the module sets *)
Definition always_set : list string :=
  ["z_vec"; "k_vec"; "matter_power_lin"; "hmcode_ingredients"; "nonlinear_mode"; "dewiggle"; "one_halo_ktrunc"; "two_halo_ktrunc";
   "lnk_min"; "lnk_max"; "dlnk"; "Mmin"; "Mmax"; "dlog10m"; "mdef_model"; "hmf_model"; "bias_model"; "overdensity"; "delta_c";
   "halo_concentration_model_dm"; "halo_concentration_model_sat"; "halo_profile_model_dm"; "halo_profile_model_sat";
   "transfer_model"; "transfer_params"; "growth_model"; "growth_params"; "norm_cen"; "norm_sat"; "eta_cen"; "eta_sat";
   "h0"; "omega_c"; "omega_b"; "w0"; "wa"; "n_s"; "tcmb"; "m_nu"; "sigma_8"; "log10T_AGN"; "mb"].
Definition set_for_nonlinear : list string := ["matter_power_nl"; "response"].
Definition set_for_galaxies : list string :=
  ["poisson_model"; "poisson_params"; "pointmass"; "hod_model"; "hod_params"; "hod_settings"; "obs_settings"; "compute_observable";
   "hod_settings_mm"].
Definition set_for_alignment : list string := ["align_params"; "one_halo_ktrunc_ia"; "two_halo_ktrunc_ia"; "t_eff"].
Definition never_set : list string := ["Neff"].
Definition passed (c : config) (n : string) : Prop :=
  In n always_set \/ (g_mode c = Some "bnl" /\ n = "beta_nl") \/
  ((g_response c = true \/ g_mode c = Some "fortuna") /\ In n set_for_nonlinear) \/
  ((galaxy c = true \/ alignment c = true) /\ In n set_for_galaxies) \/
  (alignment c = true /\ In n set_for_alignment).

(** ** Input spectra that can be interpolated *)
(** A table of the block with its axes, as lists of matching lengths. *)
Definition table_of (b : block) (sec : string) (z k : list R) (p : list (list R)) : Prop :=
  b sec "z" = Some (VArr z) /\ b sec "k_h" = Some (VArr k) /\ b sec "p_k" = Some (VTab p) /\
  List.length p = List.length z /\ Forall (fun row => List.length row = List.length k) p.
Definition covers (z : list R) (h : hmf_config) : Prop :=
  forall i, (i < h_nz h)%nat -> (nth 0 z 0 <= h_zvec h i <= nth (List.length z - 1) z 0)%R.
Definition cosmology_names : list string := ["omega_c"; "omega_b"; "h0"; "n_s"; "sigma_8"; "mnu"; "w"; "wa"].
Definition needed_values : list (string * string) :=
  ([("matter_power_transfer_func", "k_h"); ("matter_power_transfer_func", "t_k"); ("growth_parameters", "z"); ("growth_parameters", "d_z");
    ("halo_model_parameters", "logT_AGN")] ++ map (fun n => ("cosmological_parameters", n)) cosmology_names)%list.
Definition number_or_absent (b : block) (s n : string) : Prop := b s n = None \/ exists x, b s n = Some (VNum x).
Definition number (b : block) (s n : string) (d : R) : R := match b s n with Some (VNum x) => x | _ => d end.

(** ** Where each parameter of Spectra comes from *)
(** Parameter, option, default. *)
Definition option_numbers : list (string * (string * R)) :=
  [("Mmin", ("log_mass_min", 9%R)); ("Mmax", ("log_mass_max", 16%R)); ("overdensity", ("overdensity", 200%R));
   ("delta_c", ("delta_c", (1686/1000)%R))].
Definition option_texts : list (string * (string * string)) :=
  [("halo_profile_model_dm", ("profile_cen", "NFW")); ("halo_profile_model_sat", ("profile_sat", "NFW"));
   ("halo_concentration_model_dm", ("cm_model_cen", "Duffy08")); ("halo_concentration_model_sat", ("cm_model_sat", "Duffy08"));
   ("hmf_model", ("hmf_model", "Tinker10")); ("bias_model", ("bias_model", "Tinker10")); ("mdef_model", ("mdef_model", "SOMean"))].
Definition option_optional : list (string * (string * option R)) :=
  [("one_halo_ktrunc", ("one_halo_ktrunc", Some (1/10)%R)); ("two_halo_ktrunc", ("two_halo_ktrunc", Some 2%R));
   ("hmcode_ingredients", ("hmcode_ingredients", None)); ("nonlinear_mode", ("nonlinear_mode", None))].
(** Parameter, block section and name. *)
Definition block_values : list (string * (string * string)) :=
  [("omega_c", ("cosmological_parameters", "omega_c")); ("omega_b", ("cosmological_parameters", "omega_b"));
   ("h0", ("cosmological_parameters", "h0")); ("n_s", ("cosmological_parameters", "n_s"));
   ("sigma_8", ("cosmological_parameters", "sigma_8")); ("m_nu", ("cosmological_parameters", "mnu"));
   ("w0", ("cosmological_parameters", "w")); ("wa", ("cosmological_parameters", "wa"));
   ("log10T_AGN", ("halo_model_parameters", "logT_AGN"))].
(** The numbers with a default; [sec] is the section named by profile_value_name. *)
Definition block_numbers (sec : string) : list (string * (string * string * R)) :=
  [("norm_cen", (sec, "norm_cen", 1%R)); ("norm_sat", (sec, "norm_sat", 1%R)); ("eta_cen", (sec, "eta_cen", 0%R));
   ("eta_sat", (sec, "eta_sat", 0%R)); ("tcmb", ("cosmological_parameters", "TCMB", (27255/10000)%R))].
(** The section the profile numbers come from. *)
Definition profile_section (o : options) : string := text (o "profile_value_name") "profile_parameters".
Definition bool_is (v : bool) (o : options) (n : string) : Prop := v = true <-> flag o n.
(** A table on grids agrees with a table of the block where their nodes coincide, and stays
    within its bounds. *)
Definition resamples (nz nk : nat) (z k : A1) (t : A2) (zs ks : list R) (p : list (list R)) : Prop :=
  (forall i j l q, (i < nz)%nat -> (l < nk)%nat -> (j < List.length zs)%nat -> (q < List.length ks)%nat ->
     z i = nth j zs 0%R -> k l = nth q ks 0%R -> (0 < nth q (nth j p []) 0)%R -> t i l = nth q (nth j p []) 0%R) /\
  (forall i l, (i < nz)%nat -> (l < nk)%nat -> (0 < t i l)%R) /\
  (forall lo hi, (0 < lo)%R -> (forall j q, (j < List.length zs)%nat -> (q < List.length ks)%nat -> (lo <= nth q (nth j p []) 0 <= hi)%R) ->
     forall i l, (i < nz)%nat -> (l < nk)%nat -> (nth 0 ks 0 <= k l <= nth (List.length ks - 1) ks 0)%R -> (lo <= t i l <= hi)%R).
Definition sorted (l : list R) : Prop := forall i j, (i < j < List.length l)%nat -> (nth i l 0 < nth j l 0)%R.
(** A block that the module can read. *)
Definition readable (b : block) (sec : string) (h : hmf_config) : Prop :=
  Forall (fun sn => b (fst sn) (snd sn) <> None) needed_values /\
  Forall (fun kn => number_or_absent b (fst (fst (snd kn))) (snd (fst (snd kn)))) (block_numbers sec) /\
  number_or_absent b "halo_model_parameters" "m_b" /\
  (exists zs ks p, table_of b "matter_power_lin" zs ks p /\ ks <> [] /\ covers zs h) /\ (0 <= h_nk h)%Z.

(** What execute has read when it updates the object. *)
Definition shaped (X : ext) (c : config) (b : block) (base : x_base X) (beta : option (x_table X)) (nl : option (x_nl X))
    (hod : option (dict (option val) * dict hval * settings)) (al : option (dict (option val))) : Prop :=
  x_read_base X b = Ok base /\
  (if mode_is c "bnl" then exists t, beta = Some t else beta = None) /\
  (if (g_response c || mode_is c "fortuna")%bool then exists n, x_read_nl X b = Ok n /\ nl = Some n else nl = None) /\
  (if (galaxy c || alignment c)%bool then exists pp hp,
     poisson_params (x_missing X) b (g_poisson c) = Ok pp /\ hod_params b (g_hod_values c) (g_hod_model c) (g_nbins c) = Ok hp /\
     hod = Some (pp, hp, g_settings c) else hod = None) /\
  (if alignment c then exists d, align_params b (g_pop1 c) (g_central c) (g_satellite c) = Ok d /\ al = Some d else al = None).
