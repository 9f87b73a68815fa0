(** Model of the keyword arguments that cosmosis_modules/onepower_interface.py passes to the
    Spectra object, and of the object as a store of parameters.  Definitions only. *)
From Coq Require Import ZArith.
From Verif Require Import Base Interp HodModel PkModel AddModel PipeModel OptModel.
Open Scope string_scope.

(** pk.py and hmi.py: the names decorated with @parameter. *)
Definition spectra_parameters : list string :=
  ["z_vec"; "h0"; "omega_c"; "omega_b"; "w0"; "wa"; "n_s"; "tcmb"; "Neff"; "m_nu"; "sigma_8"; "log10T_AGN"; "hmcode_ingredients";
   "k_vec"; "lnk_min"; "lnk_max"; "dlnk"; "Mmin"; "Mmax"; "dlog10m"; "mdef_model"; "hmf_model"; "bias_model";
   "halo_concentration_model_dm"; "halo_concentration_model_sat"; "halo_profile_model_dm"; "halo_profile_model_sat";
   "transfer_model"; "transfer_params"; "growth_model"; "growth_params"; "norm_cen"; "norm_sat"; "eta_cen"; "eta_sat";
   "delta_c"; "overdensity"; "nonlinear_mode"; "mb"; "beta_nl"; "dewiggle"; "matter_power_lin"; "matter_power_nl"; "response";
   "one_halo_ktrunc"; "two_halo_ktrunc"; "hod_settings_mm"; "pointmass"; "compute_observable"; "poisson_params"; "hod_params";
   "hod_settings"; "obs_settings"; "t_eff"; "one_halo_ktrunc_ia"; "two_halo_ktrunc_ia"; "align_params"; "hod_model"; "poisson_model"].
Definition known (n : string) : bool := existsb (String.eqb n) spectra_parameters.

Section Keywords.
  Variable table : Type.            (* a beta_nl table *)
  (** A keyword value: a block value or None, a flag, an axis, a table on the grids, a pair of
      block arrays, dictionaries, a beta_nl table. *)
  Inductive kv :=
  | KVal (v : option val) | KBool (b : bool) | KAxis (n : nat) (a : A1) | KGrid (nz nk : nat) (t : A2) | KPair (x y : val)
  | KSettings (d : settings) | KPoisson (d : dict (option val)) | KHod (d : dict hval) | KAlign (d : dict (option val))
  | KBeta (t : table).
  Definition num_kv (x : R) : kv := KVal (Some (VNum x)).
  Definition str_kv (s : string) : kv := KVal (Some (VStr s)).

  Variables (missing wrong : string).
  Section Reading.
    Variables (m : module_config) (b : block).
    Let h := m_hmf m.
    Let q := m_request m.
    (** block[section, name]; a value that is not an array is rejected here, in the code when it
        is used. *)
    Definition need (s n : string) : res val := match b s n with Some v => Ok v | None => Err missing end.
    Definition need_num (s n : string) : res R :=
      match b s n with Some (VNum x) => Ok x | Some _ => Err "TypeError" | None => Err missing end.
    Definition need_arr (s n : string) : res (list R) :=
      match b s n with Some (VArr l) => Ok l | Some _ => Err "TypeError" | None => Err missing end.
    Definition need_tab (s n : string) : res (list (list R)) :=
      match b s n with Some (VTab l) => Ok l | Some _ => Err "TypeError" | None => Err missing end.
    (** block.get_double(section, name, default). *)
    Definition double (s n : string) (d : R) : res R :=
      match b s n with Some (VNum x) => Ok x | Some _ => Err wrong | None => Ok d end.
    Definition at_ (l : list R) (i : nat) : R := nth i l 0%R.
    Definition cell (t : list (list R)) (i k : nat) : R := at_ (nth i t []) k.

    Fixpoint rows (f : R -> res A1) (z : A1) (n : nat) : res (list A1) :=
      match n with
      | O => Ok []
      | S n => bind (rows f z n) (fun l => bind (f (z n)) (fun r => Ok (l ++ [r])%list))
      end.
    (** 82-99 and 738, 743, 842-843: a power spectrum of the block, interpolated to the redshifts and then
        to the wavenumbers.  interp1d wants matching shapes. *)
    Definition read_power (sec : string) (k_out : A1) : res A2 :=
      bind (need_arr sec "k_h") (fun k => bind (need_arr sec "z") (fun z => bind (need_tab sec "p_k") (fun p =>
      if negb (Nat.eqb (List.length p) (List.length z)) then Err "ValueError"
      else bind (rows (interpolate_in_z (List.length z) (at_ z) (cell p)) (h_zvec h) (h_nz h)) (fun r =>
      if negb (forallb (fun row => Nat.eqb (List.length row) (List.length k)) p) then Err "ValueError"
      else Ok (fun i j => log_linear_k (List.length k) (at_ k) (nth i r (fun _ => 0%R)) (k_out j)))))).
    (** 738-741  the wavenumbers; the first of an empty array is an IndexError. *)
    Definition read_k : res (nat * A1) :=
      bind (need_arr "matter_power_lin" "k_h") (fun k =>
      match k with
      | [] => Err "IndexError"
      | _ => bind (k_points h) (fun n => Ok (n, k_grid h (List.length k) (at_ k)))
      end).

    (** 729-802  power_kwargs. *)
    Definition cosmo (n : string) : res val := need "cosmological_parameters" n.
    Definition read_kwargs : res (dict kv) :=
      bind (need "matter_power_transfer_func" "k_h") (fun tk => bind (need "matter_power_transfer_func" "t_k") (fun tf =>
      bind (need "growth_parameters" "z") (fun gz => bind (need "growth_parameters" "d_z") (fun gd =>
      bind read_k (fun k =>
      bind (need "matter_power_lin" "z") (fun _ =>
      bind (read_power "matter_power_lin" (snd k)) (fun plin =>
      bind (double (h_profile_value h) "norm_cen" 1) (fun nc => bind (double (h_profile_value h) "norm_sat" 1) (fun ns =>
      bind (double (h_profile_value h) "eta_cen" 0) (fun ec => bind (double (h_profile_value h) "eta_sat" 0) (fun es =>
      bind (cosmo "omega_c") (fun oc => bind (cosmo "omega_b") (fun ob => bind (cosmo "h0") (fun h0 =>
      bind (cosmo "n_s") (fun n_s => bind (cosmo "sigma_8") (fun s8 => bind (cosmo "mnu") (fun mnu =>
      bind (cosmo "w") (fun w => bind (cosmo "wa") (fun wa =>
      bind (double "cosmological_parameters" "TCMB" (27255/10000)) (fun tcmb =>
      bind (need "halo_model_parameters" "logT_AGN") (fun agn =>
      bind (double "halo_model_parameters" "m_b" (1387/100)) (fun mb =>
      Ok [("matter_power_lin", KGrid (h_nz h) (fst k) plin); ("hmcode_ingredients", KVal (q_ingr q)); ("nonlinear_mode", KVal (q_mode q));
          ("dewiggle", KBool (q_dewiggle q)); ("k_vec", KAxis (fst k) (snd k)); ("z_vec", KAxis (h_nz h) (h_zvec h));
          ("lnk_min", num_kv (h_lnk_min h)); ("lnk_max", num_kv (h_lnk_max h)); ("dlnk", num_kv (h_dlnk h));
          ("Mmin", num_kv (h_min h)); ("Mmax", num_kv (h_max h)); ("dlog10m", num_kv (h_dlog10m h));
          ("mdef_model", str_kv (h_mdef h)); ("hmf_model", str_kv (h_hmf h)); ("bias_model", str_kv (h_bias h));
          ("halo_profile_model_dm", str_kv (h_profile_cen h)); ("halo_concentration_model_dm", str_kv (h_cm_cen h));
          ("halo_profile_model_sat", str_kv (h_profile_sat h)); ("halo_concentration_model_sat", str_kv (h_cm_sat h));
          ("transfer_model", str_kv "FromArray"); ("transfer_params", KPair tk tf);
          ("growth_model", str_kv "FromArray"); ("growth_params", KPair gz gd);
          ("norm_cen", num_kv nc); ("norm_sat", num_kv ns); ("eta_cen", num_kv ec); ("eta_sat", num_kv es);
          ("overdensity", num_kv (h_overdensity h)); ("delta_c", num_kv (h_delta_c h));
          ("one_halo_ktrunc", KVal (q_k1 q)); ("two_halo_ktrunc", KVal (q_k2 q));
          ("omega_c", KVal (Some oc)); ("omega_b", KVal (Some ob)); ("h0", KVal (Some h0)); ("n_s", KVal (Some n_s));
          ("sigma_8", KVal (Some s8)); ("m_nu", KVal (Some mnu)); ("w0", KVal (Some w)); ("wa", KVal (Some wa));
          ("tcmb", num_kv tcmb); ("log10T_AGN", KVal (Some agn)); ("mb", num_kv (pow10 mb))])))))))))))))))))))))).
    (** 841-844  the non-linear power. *)
    Definition read_nl : res (dict kv) :=
      bind read_k (fun k => bind (read_power "matter_power_nl" (snd k)) (fun p =>
      Ok [("matter_power_nl", KGrid (h_nz h) (fst k) p); ("response", KBool (q_response q))])).
    (** 965-971  the truncations and the linear fraction; read here together with the other
        keywords, in the code after the alignment parameters. *)
    Definition read_align : res (dict kv) :=
      if q_alignment q then
        bind (double "pk_parameters" "linear_fraction_fortuna" 0) (fun t =>
        Ok [("one_halo_ktrunc_ia", KVal (q_k1_ia q)); ("two_halo_ktrunc_ia", KVal (q_k2_ia q)); ("t_eff", num_kv t)])
      else Ok [].
    (** 891-903. *)
    Definition galaxy_kwargs (pp : dict (option val)) (hp : dict hval) (hs : settings) : dict kv :=
      [("poisson_model", str_kv (q_poisson q)); ("poisson_params", KPoisson pp); ("pointmass", KBool (q_pointmass q));
       ("hod_model", str_kv (d_model (m_hod m))); ("hod_params", KHod hp); ("hod_settings", KSettings hs);
       ("obs_settings", KSettings (d_obs (m_hod m))); ("compute_observable", KBool (d_save (m_hod m)));
       ("hod_settings_mm", KSettings (d_settings_mm (m_hod m)))].
    (** 809-826  the arguments of NonLinearBias; omega_lambda = 1 - omega_m, z_dep = False. *)
    Record bnl_args := {
      b_nm : nat; b_mass : A1; b_nz : nat; b_z : A1; b_nk : nat; b_k : A1;
      b_h0 : val; b_As : val; b_ob : val; b_oc : val; b_ol : R; b_ns : val; b_w0 : val }.
    Definition read_bnl : res bnl_args :=
      bind read_k (fun k => bind (cosmo "h0") (fun h0 => bind (cosmo "A_s") (fun As => bind (cosmo "omega_b") (fun ob =>
      bind (cosmo "omega_c") (fun oc => bind (need_num "cosmological_parameters" "omega_m") (fun om =>
      bind (cosmo "n_s") (fun n_s => bind (cosmo "w") (fun w =>
      Ok {| b_nm := mass_points h; b_mass := mass_grid h; b_nz := h_nz h; b_z := h_zvec h; b_nk := fst k; b_k := snd k;
            b_h0 := h0; b_As := As; b_ob := ob; b_oc := oc; b_ol := 1 - om; b_ns := n_s; b_w0 := w |})))))))).
  End Reading.

  (** ** The Spectra object as a store of parameters *)
  Definition store := string -> kv.
  Definition assign (o : store) (n : string) (v : kv) : store := fun x => if String.eqb x n then v else o x.
  (** What Spectra computes from its parameters (C34 says when a kept object does), the checks of
      its setters, its validate, and the emulator. *)
  Record spectra := {
    s_check : string -> kv -> res unit; s_valid : store -> res unit;
    s_nz : store -> nat; s_z : store -> A1; s_nk : store -> nat; s_k : store -> A1;
    s_spec : store -> string -> res psr;
    s_matter : store -> res unit; s_bins : store -> res nat; s_obs_bins : store -> res (option nat);
    s_default : store;
    s_bnl : bnl_args -> res table }.
  Variable S : spectra.
  (** hmf's Framework.update: every known keyword in turn through its setter, which may raise;
      unknown ones raise after the loop, and validate (pk.py:207-215) sees the result. *)
  Fixpoint set_all (o : store) (kw : dict kv) : store * res unit :=
    match kw with
    | [] => (o, Ok tt)
    | (n, v) :: kw =>
        if known n then
          match s_check S n v with
          | Ok _ => set_all (assign o n v) kw
          | Err e => (o, Err e)
          end
        else let '(o', r) := set_all o kw in (o', bind r (fun _ => Err "ValueError"))
    end.
  Definition update_all (o : store) (kw : dict kv) : store * res unit :=
    let '(o', r) := set_all o kw in (o', bind r (fun _ => s_valid S o')).
  Definition set_res (o : store) (kw : dict kv) : res store := let '(o', r) := update_all o kw in bind r (fun _ => Ok o').
  Definition spectra_api : api :=
    {| obj := store; prm := dict kv;
       construct := set_res (s_default S); update_obj := set_res;
       o_nz := s_nz S; o_z := s_z S; o_nk := s_nk S; o_k := s_k S; o_spec := s_spec S |}.
  (** The module around it, for the configuration that setup returned.  The output grid is the
      input grid of the linear power (738, 742, 1061-1062). *)
  Definition out_axis (b : block) (n : string) : nat * A1 :=
    match b "matter_power_lin" n with Some (VArr l) => (List.length l, at_ l) | _ => (0%nat, fun _ => 0%R) end.
  Definition module_ext (m : module_config) : ext :=
    {| xa := spectra_api; x_table := table; x_base := dict kv * dict kv; x_nl := dict kv; x_missing := missing;
       x_read_base := fun b => bind (read_kwargs m b) (fun kw => bind (read_align m b) (fun al => Ok (kw, al)));
       x_read_nl := read_nl m;
       x_compute_bnl := fun b => bind (read_bnl m b) (s_bnl S);
       x_update := update_all;
       x_full := fun base beta nl hod al =>
         let kw := fst base in
         let kw := match beta with Some t => dupdate kw [("beta_nl", KBeta t)] | None => kw end in
         let kw := match nl with Some d => dupdate kw d | None => kw end in
         let kw := match hod with Some (pp, hp, hs) => dupdate kw (galaxy_kwargs m pp hp hs) | None => kw end in
         match al with Some d => dupdate kw (("align_params", KAlign d) :: snd base) | None => kw end;
       x_hod := fun hs => [("hod_settings", KSettings hs)];
       x_two := fun hs al => [("hod_settings", KSettings hs); ("align_params", KAlign al)];
       x_grid := fun b => (out_axis b "z", out_axis b "k_h");
       x_matter := s_matter S; x_bins := s_bins S; x_obs_bins := s_obs_bins S |}.
  (** setup (646): the object starts as Spectra(). *)
  Definition start (m : module_config) : pst (module_ext m) := Build_pst (module_ext m) 0 None (s_default S).
  (** A sampler's run: calls one after the other, whatever they return. *)
  Fixpoint calls (m : module_config) (bs : list block) (st : pst (module_ext m)) : pst (module_ext m) :=
    match bs with
    | [] => st
    | b :: bs => calls m bs (fst (fst (execute (module_ext m) (config_of m) b (st, []))))
    end.
End Keywords.
