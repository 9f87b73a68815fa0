(** Model of the option reading of cosmosis_modules/onepower_interface.py: setup_hod_settings,
    setup_hmf_config, setup_pipeline_parameters, setup_hod and setup.  Definitions only.
    The options of the module's section are a partial map from names to typed values; the
    typed getters are those of the cosmosis data block: a missing name without default raises
    [missing], a value of another type [wrong]; an integer is accepted where a double is
    asked for. *)
From Coq Require Import ZArith Ascii.
From Verif Require Import Base Interp HodModel PkModel AddModel PipeModel.
Open Scope string_scope.

Inductive oval := OInt (z : Z) | ODbl (x : R) | OBool (b : bool) | OStr (s : string) | OArr (l : list R).
Definition options := string -> option oval.

(** str.lower on the ASCII letters. *)
Definition lower_ascii (a : ascii) : ascii :=
  let n := nat_of_ascii a in
  if (Nat.leb 65 n && Nat.leb n 90)%bool then ascii_of_nat (n + 32) else a.
Fixpoint lower (s : string) : string :=
  match s with EmptyString => EmptyString | String a t => String (lower_ascii a) (lower t) end.

(** np.arange(a, b, s): ceil((b - a)/s) points from a on; a zero step raises. *)
Definition ceil (x : R) : Z := (1 - up (- x))%Z.
Definition arange_len (a b s : R) : nat := Z.to_nat (ceil ((b - a) / s)).
Definition arange (a s : R) (i : nat) : R := (a + INR i * s)%R.

Section Reading.
  (** Exception classes of the data block. *)
  Variables missing wrong : string.
  Variable o : options.

  Definition absent {A} (d : option A) : res A := match d with Some v => Ok v | None => Err missing end.
  Definition get_double (n : string) (d : option R) : res R :=
    match o n with
    | None => absent d
    | Some (OInt z) => Ok (IZR z)
    | Some (ODbl x) => Ok x
    | Some _ => Err wrong
    end.
  Definition get_int (n : string) (d : option Z) : res Z :=
    match o n with None => absent d | Some (OInt z) => Ok z | Some _ => Err wrong end.
  Definition get_bool (n : string) (d : option bool) : res bool :=
    match o n with None => absent d | Some (OBool b) => Ok b | Some _ => Err wrong end.
  Definition get_string (n : string) (d : option string) : res string :=
    match o n with None => absent d | Some (OStr s) => Ok s | Some _ => Err wrong end.
  (** 40-59  get_string_or_none: a bool is a numbers.Number but no double. *)
  Definition string_or_none (n : string) (d : option R) : res (option val) :=
    match o n with
    | Some (OStr v) => Ok (if String.eqb v "None" then None else Some (VStr v))
    | Some (OInt z) => Ok (Some (VNum (IZR z)))
    | Some (ODbl x) => Ok (Some (VNum x))
    | Some (OBool _) => Err wrong
    | Some (OArr _) => Err "ValueError"
    | None => match d with
              | Some x => Ok (Some (VNum x))
              | None => if String.eqb missing "ValueError" then Ok None else Err missing
              end
    end.
  (** np.asarray([options[section, n]]).flatten().  An array of strings, which only fails at
      its first use, is rejected here. *)
  Definition get_array (n : string) : res (list R) :=
    match o n with
    | None => Err missing
    | Some (OInt z) => Ok [IZR z]
    | Some (ODbl x) => Ok [x]
    | Some (OBool b) => Ok [if b then 1%R else 0%R]
    | Some (OArr l) => Ok l
    | Some (OStr _) => Err "TypeError"
    end.
  (** options[section, n] used as a count.  A value numpy would reject as a count is rejected
      here, where it is read. *)
  Definition get_count (n : string) : res nat :=
    match o n with
    | None => Err missing
    | Some (OInt z) => if Z.ltb z 0 then Err "ValueError" else Ok (Z.to_nat z)
    | Some _ => Err "TypeError"
    end.
  Definition has_value (n : string) : bool := match o n with Some _ => true | None => false end.

  (** 102-128  setup_hod_settings. *)
  Definition read_settings (suf : string) : res settings :=
    bind (if has_value ("observables_file_" ++ suf)
          then bind (get_string ("observables_file_" ++ suf) None) (fun f => Ok (Some f, (([], []), ([], [])), 0%nat))
          else bind (get_array ("log10_obs_min_" ++ suf)) (fun a => bind (get_array ("log10_obs_max_" ++ suf)) (fun b =>
               bind (get_array ("zmin_" ++ suf)) (fun c => bind (get_array ("zmax_" ++ suf)) (fun d =>
               bind (get_count ("nz_" ++ suf)) (fun n => Ok (None, ((a, b), (c, d)), n))))))) (fun p =>
    bind (get_count ("nobs_" ++ suf)) (fun nobs =>
    bind (get_string "observable_h_unit" (Some "1/h^2")) (fun u =>
    let '(f, ((a, b), (c, d)), n) := p in
    Ok (setup_hod_settings f a b c d n nobs (lower u))))).

  (** 144-188  setup_hmf_config. *)
  Record hmf_config := {
    h_min : R; h_max : R; h_dlog10m : R; h_nz : nat; h_zvec : A1; h_nk : Z;
    h_profile_cen : string; h_profile_sat : string; h_profile_value : string; h_hmf : string; h_mdef : string;
    h_overdensity : R; h_cm_cen : string; h_cm_sat : string; h_delta_c : R; h_bias : string;
    h_lnk_min : R; h_lnk_max : R; h_dlnk : R }.
  Definition setup_hmf_config : res hmf_config :=
    bind (get_double "log_mass_min" (Some 9)) (fun mn =>
    bind (get_double "log_mass_max" (Some 16)) (fun mx =>
    bind (get_int "nmass" (Some 200%Z)) (fun nm =>
    bind (if Z.eqb nm 0 then Err "ZeroDivisionError" else Ok ((mx - mn) / IZR nm)%R) (fun dm =>
    bind (get_double "zmin_hmf" (Some 0)) (fun z0 =>
    bind (get_double "zmax_hmf" (Some 3)) (fun z1 =>
    bind (get_int "nz_hmf" (Some 15%Z)) (fun nz =>
    bind (if Z.ltb nz 0 then Err "ValueError" else Ok (Z.to_nat nz)) (fun nz =>
    bind (get_int "nk" (Some 100%Z)) (fun nk =>
    bind (get_string "profile_cen" (Some "NFW")) (fun pc =>
    bind (get_string "profile_sat" (Some "NFW")) (fun ps =>
    bind (get_string "profile_value_name" (Some "profile_parameters")) (fun pv =>
    bind (get_string "hmf_model" (Some "Tinker10")) (fun hm =>
    bind (get_string "mdef_model" (Some "SOMean")) (fun md =>
    bind (get_double "overdensity" (Some 200)) (fun od =>
    bind (get_string "cm_model_cen" (Some "Duffy08")) (fun cc =>
    bind (get_string "cm_model_sat" (Some "Duffy08")) (fun cs =>
    bind (get_double "delta_c" (Some (1686/1000))) (fun dc =>
    bind (get_string "bias_model" (Some "Tinker10")) (fun bm =>
    Ok {| h_min := mn; h_max := mx; h_dlog10m := dm; h_nz := nz; h_zvec := linspace z0 z1 nz; h_nk := nk;
          h_profile_cen := pc; h_profile_sat := ps; h_profile_value := pv; h_hmf := hm; h_mdef := md;
          h_overdensity := od; h_cm_cen := cc; h_cm_sat := cs; h_delta_c := dc; h_bias := bm;
          h_lnk_min := ln (1/100000000); h_lnk_max := ln 100000000; h_dlnk := 1/20 |}))))))))))))))))))).

  (** 191-258  setup_pipeline_parameters. *)
  Record request := {
    q_mm : bool; q_gg : bool; q_gm : bool; q_gI : bool; q_mI : bool; q_II : bool; q_response : bool; q_split : bool;
    q_k1_ia : option val; q_k2_ia : option val; q_k1 : option val; q_k2 : option val;
    q_ingr : option val; q_mode : option val; q_dewiggle : bool; q_pointmass : bool; q_poisson : string }.
  Definition setup_pipeline_parameters : res request :=
    bind (get_bool "p_mm" (Some false)) (fun mm =>
    bind (get_bool "p_gg" (Some false)) (fun gg =>
    bind (get_bool "p_gm" (Some false)) (fun gm =>
    bind (get_bool "p_gI" (Some false)) (fun gI =>
    bind (get_bool "p_mI" (Some false)) (fun mI =>
    bind (get_bool "p_II" (Some false)) (fun II =>
    bind (get_bool "response" (Some false)) (fun re =>
    bind (get_bool "split_ia" (Some false)) (fun sp =>
    bind (string_or_none "one_halo_ktrunc_ia" (Some 4)) (fun k1i =>
    bind (string_or_none "two_halo_ktrunc_ia" (Some 6)) (fun k2i =>
    bind (string_or_none "one_halo_ktrunc" (Some (1/10))) (fun k1 =>
    bind (string_or_none "two_halo_ktrunc" (Some 2)) (fun k2 =>
    bind (string_or_none "hmcode_ingredients" None) (fun ing =>
    bind (string_or_none "nonlinear_mode" None) (fun mo =>
    bind (get_bool "dewiggle" (Some false)) (fun dw =>
    bind (get_bool "point_mass" (Some false)) (fun pm =>
    bind (get_string "poisson_type" (Some "")) (fun po =>
    Ok {| q_mm := mm; q_gg := gg; q_gm := gm; q_gI := gI; q_mI := mI; q_II := II; q_response := re; q_split := sp;
          q_k1_ia := k1i; q_k2_ia := k2i; q_k1 := k1; q_k2 := k2; q_ingr := ing; q_mode := mo; q_dewiggle := dw;
          q_pointmass := pm; q_poisson := po |}))))))))))))))))).
  (** 206-208. *)
  Definition q_galaxy (q : request) : bool := (q_gg q || q_gm q)%bool.
  Definition q_alignment (q : request) : bool := (q_gI q || q_mI q || q_II q)%bool.

  (** 270-274 and the like: the population suffix. *)
  Definition read_pop (n : string) : res string :=
    bind (get_string n (Some "")) (fun s => let p := lower s in Ok (if String.eqb p "" then "" else "_" ++ p)).

  (** 276-314  the alignment names; without alignment they are None, here the empty string,
      and never used; so is the second population without split. *)
  Record ia_names := { n_central : string; n_satellite : string; n_sec1 : string; n_sec2 : string; n_pop1 : string; n_pop2 : string }.
  Definition read_ia_names (alignment split : bool) : res ia_names :=
    if alignment then
      bind (get_string "central_IA_depends_on" (Some "halo_mass")) (fun c =>
      bind (get_string "satellite_IA_depends_on" (Some "halo_mass")) (fun s =>
      if split then
        bind (get_string "hod_section_name_ia_1" None) (fun s1 => bind (read_pop "output_suffix_ia_1") (fun p1 =>
        bind (get_string "hod_section_name_ia_2" None) (fun s2 => bind (read_pop "output_suffix_ia_2") (fun p2 =>
        Ok {| n_central := c; n_satellite := s; n_sec1 := s1; n_sec2 := s2; n_pop1 := p1; n_pop2 := p2 |}))))
      else
        bind (get_string "hod_section_name_ia" None) (fun s1 => bind (read_pop "output_suffix_ia") (fun p1 =>
        Ok {| n_central := c; n_satellite := s; n_sec1 := s1; n_sec2 := ""; n_pop1 := p1; n_pop2 := "" |}))))
    else Ok {| n_central := ""; n_satellite := ""; n_sec1 := ""; n_sec2 := ""; n_pop1 := ""; n_pop2 := "" |}.

  (** 261-363  setup_hod. *)
  Record hod_part := {
    d_section : string; d_values : string; d_pop : string; d_names : ia_names; d_model : string;
    d_settings : settings; d_settings_mm : settings; d_nbins : nat; d_ia_1 : settings; d_ia_2 : settings;
    d_obs : settings; d_save : bool; d_obs_section : string }.
  Definition setup_hod (gal al split : bool) : res hod_part :=
    bind (get_string "hod_section_name" (Some "hod")) (fun sec =>
    bind (get_string "values_name" (Some "hod_parameters")) (fun vals =>
    bind (read_pop "output_suffix") (fun pop =>
    bind (read_ia_names al split) (fun names =>
    bind (get_string "hod_model" (Some "Cacciato")) (fun model =>
    bind (if gal
          then bind (read_settings "hod") (fun d => bind (setup_hod_galaxy d) (fun p =>
               let '(h, mm, n) := p in Ok (hget h 0, hget h mm, n)))
          else Ok ([], [], 0%nat)) (fun g =>
    bind (if al
          then if split
               then bind (read_settings "ia_1") (fun a => bind (read_settings "ia_2") (fun b => Ok (a, b)))
               else bind (read_settings "ia") (fun a => Ok (a, []))
          else Ok ([], [])) (fun ia =>
    bind (get_bool "save_observable" (Some false)) (fun save =>
    bind (if save
          then bind (read_settings "smf") (fun d =>
               bind (get_string "observable_section_name" (Some "stellar_mass_function")) (fun s => Ok (d, lower s)))
          else Ok ([], "stellar_mass_function")) (fun ob =>
    Ok {| d_section := sec; d_values := lower vals; d_pop := pop; d_names := names; d_model := model;
          d_settings := fst (fst g); d_settings_mm := snd (fst g); d_nbins := snd g;
          d_ia_1 := fst ia; d_ia_2 := snd ia; d_obs := fst ob; d_save := save; d_obs_section := snd ob |}))))))))).

  (** The mode string; a number is no mode and equals none of them. *)
  Definition mode_name (v : option val) : option string :=
    match v with None => None | Some (VStr s) => Some s | Some _ => Some "" end.
  (** 635-644  the refresh period is read in beta_nl mode only; Python's remainder by a negative
      number vanishes for the same calls as by its absolute value.  Other types are rejected
      here, where they are read. *)
  Definition read_update (have_darkemu : bool) (mode : option string) : res nat :=
    match mode with
    | Some m =>
        if String.eqb m "bnl" then
          if have_darkemu then
            match o "update_bnl" with
            | None => Err missing
            | Some (OInt z) => Ok (Z.abs_nat z)
            | Some _ => Err "TypeError"
            end
          else Err "ImportError"
        else Ok 0%nat
    | None => Ok 0%nat
    end.

  (** 582-681  setup. *)
  Record module_config := { m_request : request; m_hod : hod_part; m_hmf : hmf_config; m_update : nat }.
  Definition setup (have_darkemu : bool) : res module_config :=
    bind setup_pipeline_parameters (fun q =>
    bind (setup_hod (q_galaxy q) (q_alignment q) (q_split q)) (fun d =>
    bind setup_hmf_config (fun h =>
    bind (read_update have_darkemu (mode_name (q_mode q))) (fun u =>
    Ok {| m_request := q; m_hod := d; m_hmf := h; m_update := u |})))).
End Reading.

(** What execute receives, as the configuration of [PipeModel]. *)
Definition config_of (m : module_config) : config :=
  let q := m_request m in let d := m_hod m in let n := d_names d in
  {| PipeModel.g_mm := q_mm q; g_gg := q_gg q; g_gm := q_gm q; g_gI := q_gI q; g_mI := q_mI q; g_II := q_II q;
     g_response := q_response q; g_split := q_split q; g_mode := mode_name (q_mode q); g_poisson := q_poisson q;
     g_hod_model := d_model d; g_settings := d_settings d; g_ia_1 := d_ia_1 d; g_ia_2 := d_ia_2 d; g_obs := d_obs d;
     g_save_obs := d_save d; g_hod_section := d_section d; g_hod_values := d_values d; g_hod_section_ia := n_sec1 n;
     g_obs_section := d_obs_section d; g_pop1 := n_pop1 n; g_pop2 := n_pop2 n; g_central := n_central n;
     g_satellite := n_satellite n; g_nbins := d_nbins d; g_update_bnl := m_update m |}.

(** ** Grids built from the configuration *)
Open Scope R_scope.
(** 811-816 (beta_nl) and the mass grid of the hmf package (10^np.arange(Mmin, Mmax, dlog10m)),
    which Spectra uses with the three values of lines 762-764. *)
Definition mass_points (h : hmf_config) : nat := arange_len (h_min h) (h_max h) (h_dlog10m h).
Definition mass_grid (h : hmf_config) (i : nat) : R := pow10 (arange (h_min h) (h_dlog10m h) i).
(** 738-741  the wavenumbers, from those of the linear power; a negative number raises. *)
Definition k_points (h : hmf_config) : res nat := if Z.ltb (h_nk h) 0 then Err "ValueError" else Ok (Z.to_nat (h_nk h)).
Definition k_grid (h : hmf_config) (n : nat) (k_in : A1) (i : nat) : R :=
  logspace (log10 (k_in 0%nat)) (log10 (k_in (n - 1)%nat)) (Z.to_nat (h_nk h)) i.
