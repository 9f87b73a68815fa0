(** Model of cosmosis_modules/onepower_interface.py.  Definitions only.  The data block is a
    partial map from (section, name); what the module writes is a log.  The Spectra class is
    seen through AddModel.api, so that UpsampledSpectra is the model of AddModel. *)
From Coq Require Import Decimal DecimalString DecimalNat.
From Verif Require Import Base Interp HodModel PkModel AddModel.
Open Scope string_scope.

(** ** Values, blocks, dictionaries *)
(** A number, a string, a one- or two-dimensional array, anything else. *)
Inductive val := VNum (x : R) | VStr (s : string) | VArr (l : list R) | VTab (l : list (list R)) | VOther.
Definition block := string -> string -> option val.
(** Python dict with string keys. *)
Definition dict (V : Type) := list (string * V).
Fixpoint dget {V} (d : dict V) (k : string) : option V :=
  match d with [] => None | (k', v) :: t => if String.eqb k k' then Some v else dget t k end.
Fixpoint dset {V} (d : dict V) (k : string) (v : V) : dict V :=
  match d with
  | [] => [(k, v)]
  | (k', v') :: t => if String.eqb k k' then (k, v) :: t else (k', v') :: dset t k v
  end.
Definition dupdate {V} (d e : dict V) : dict V := fold_left (fun d p => dset d (fst p) (snd p)) e d.
(** block[section, name]. *)
Definition bget (b : block) (s n : string) : res val :=
  match b s n with Some v => Ok v | None => Err "BlockNameNotFound" end.

(** 40-59  get_string_or_none; get_double with a missing value and no default raises
    [missing] (the class cosmosis uses), which only a ValueError turns into None. *)
Definition get_string_or_none (missing : string) (b : block) (s n : string) (default : option R) : res (option val) :=
  match b s n with
  | Some (VStr v) => Ok (if String.eqb v "None" then None else Some (VStr v))
  | Some (VNum x) => Ok (Some (VNum x))
  | Some _ => Err "ValueError"
  | None => match default with
            | Some d => Ok (Some (VNum d))
            | None => if String.eqb missing "ValueError" then Ok None else Err missing
            end
  end.

(** ** Interpolation of the input spectra *)

(** 62-68  interpolate_in_z: interp1d without fill value, out of range is an error. *)
Definition interpolate_in_z (n : nat) (z_in : A1) (grid : A2) (z : R) : res A1 :=
  if Rlt_dec z (z_in 0%nat) then Err "ValueError"
  else if Rlt_dec (z_in (n - 1)%nat) z then Err "ValueError"
  else Ok (fun k => interp_lin n z_in (fun i => grid i k) z).
(** 71-79  log_linear_interpolation_k, one row. *)
Definition log_linear_k (n : nat) (k_in : A1) (p : A1) (k : R) : R :=
  exp (interp_lin n (fun i => ln (k_in i)) (fun i => ln (p i)) (ln k)).

(** ** HOD settings *)
Inductive sval := SNone | SStr (s : string) | SArr (l : list R) | SNum (n : nat).
Definition settings := dict sval.
(** 102-128  setup_hod_settings, given the option values: the file, or the five entries. *)
Definition setup_hod_settings (file : option string) (obs_min obs_max zmin zmax : list R) (nz nobs : nat) (unit_ : string) : settings :=
  (match file with
   | Some f => [("observables_file", SStr f)]
   | None => [("observables_file", SNone); ("obs_min", SArr obs_min); ("obs_max", SArr obs_max);
              ("zmin", SArr zmin); ("zmax", SArr zmax); ("nz", SNum nz)]
   end ++ [("nobs", SNum nobs); ("observable_h_unit", SStr unit_)])%list.
(** ndarray.min / max of a 1-d array; an empty one raises. *)
Definition arr_min (l : list R) : res R :=
  match l with [] => Err "ValueError" | x :: t => Ok (fold_left Rmin t x) end.
Definition arr_max (l : list R) : res R :=
  match l with [] => Err "ValueError" | x :: t => Ok (fold_left Rmax t x) end.
Definition get_arr (d : settings) (k : string) : res (list R) :=
  match dget d k with
  | Some (SArr l) => Ok l
  | Some _ => Err "AttributeError"
  | None => Err "KeyError"
  end.
(** Dictionaries live in a heap; a reference is an index. *)
Definition heap := list settings.
Definition hget (h : heap) (r : nat) : settings := nth r h [].
Fixpoint hput (h : heap) (r : nat) (d : settings) : heap :=
  match h, r with
  | [], _ => []
  | _ :: t, O => d :: t
  | x :: t, S r => x :: hput t r d
  end.
(** 131-141  setup_hod_settings_mm: copy() is a new reference; every assignment goes to it. *)
Definition assign_key (h : heap) (r : nat) (k : string) (v : sval) : heap := hput h r (dset (hget h r) k v).
Definition setup_hod_settings_mm (h : heap) (r : nat) : res (heap * nat) :=
  let mm := List.length h in
  let h := (h ++ [hget h r])%list in
  bind (match dget (hget h mm) "observables_file" with
        | Some SNone =>
            bind (bind (get_arr (hget h r) "obs_min") arr_min) (fun v =>
            let h := assign_key h mm "obs_min" (SArr [v]) in
            bind (bind (get_arr (hget h r) "obs_max") arr_max) (fun v =>
            let h := assign_key h mm "obs_max" (SArr [v]) in
            bind (bind (get_arr (hget h r) "zmin") arr_min) (fun v =>
            let h := assign_key h mm "zmin" (SArr [v]) in
            bind (bind (get_arr (hget h r) "zmax") arr_max) (fun v =>
            let h := assign_key h mm "zmax" (SArr [v]) in
            Ok (assign_key h mm "nz" (SNum 15))))))
        | Some _ => Ok h
        | None => Err "KeyError"
        end)
    (fun h => Ok (assign_key h mm "nobs" (SNum 100), mm)).
(** 316-323  the galaxy part of setup_hod: settings, matter settings, number of bins. *)
Definition setup_hod_galaxy (d : settings) : res (heap * nat * nat) :=
  bind (setup_hod_settings_mm [d] 0) (fun p =>
  bind (get_arr (hget (fst p) 0) "obs_min") (fun l => Ok (fst p, snd p, List.length l))).

(** ** Names *)

(** str(n). *)
Definition dec (n : nat) : string := NilEmpty.string_of_uint (Nat.to_uint n).
(** 447 and everywhere else  f'_{nb + 1}' if hod_bins != 1 else ''. *)
Definition suffix (bins nb : nat) : string := if Nat.eqb bins 1 then "" else "_" ++ dec (nb + 1).

(** ** Parameters *)

(** 15-37. *)
Definition parameters_models : dict (list string) :=
  [("Zheng", ["log10_Mmin"; "sigma"; "log10_M0"; "log10_M1"; "alpha"]);
   ("Zhai", ["log10_Mmin"; "sigma"; "log10_Msat"; "log10_Mcut"; "alpha"]);
   ("Cacciato", ["log10_obs_norm_c"; "log10_m_ch"; "g1"; "g2"; "sigma_log10_O_c"; "norm_s"; "pivot"; "alpha_s";
                 "beta_s"; "b0"; "b1"; "b2"])].
Definition poisson_parameters : dict (list string) :=
  [("constant", ["poisson"]); ("power_law", ["poisson"; "pivot"; "slope"])].

Definition lookup_key {V} (d : dict V) (k : string) : res V :=
  match dget d k with Some v => Ok v | None => Err "KeyError" end.
(** 849-857. *)
Fixpoint poisson_loop (missing : string) (b : block) (ps : list string) (acc : dict (option val)) : res (dict (option val)) :=
  match ps with
  | [] => Ok acc
  | p :: ps =>
      match b "pk_parameters" p with
      | None => Err "Exception"
      | Some _ => bind (get_string_or_none missing b "pk_parameters" p None) (fun v =>
                  poisson_loop missing b ps (dset acc p v))
      end
  end.
Definition poisson_params (missing : string) (b : block) (ty : string) : res (dict (option val)) :=
  bind (lookup_key poisson_parameters ty) (fun ps => poisson_loop missing b ps []).

Inductive hval := HNone | HVal (v : val) | HArr (l : list val).
(** 880-888  one parameter over the bins. *)
Fixpoint bin_loop (b : block) (sec param : string) (nbins : nat) (nbs : list nat) (acc : list val) : res (list val) :=
  match nbs with
  | [] => Ok acc
  | nb :: nbs =>
      match b sec (param ++ suffix nbins nb) with
      | None => Err "Exception"
      | Some v => bin_loop b sec param nbins nbs (acc ++ [v])%list
      end
  end.
(** 871-889. *)
Fixpoint hod_loop (b : block) (sec model : string) (nbins : nat) (ps : list string) (acc : dict hval) : res (dict hval) :=
  match ps with
  | [] => Ok acc
  | p :: ps =>
      if String.eqb model "Cacciato" then
        match b sec p with
        | None => Err "Exception"
        | Some v => hod_loop b sec model nbins ps (dset acc p (HVal v))
        end
      else bind (bin_loop b sec p nbins (seq 0 nbins) []) (fun l => hod_loop b sec model nbins ps (dset acc p (HArr l)))
  end.
(** 859-889. *)
Definition hod_params (b : block) (sec model : string) (nbins : nat) : res (dict hval) :=
  let opt n := match b sec n with Some v => HVal v | None => HNone end in
  bind (lookup_key parameters_models model) (fun ps =>
  hod_loop b sec model nbins ps [("A_cen", opt "A_cen"); ("A_sat", opt "A_sat")]).

(** ** Alignment parameters *)
Definition ia_section (pop : string) : string := "intrinsic_alignment_parameters" ++ pop.
(** 909-944 / 977-1012: the two branches, in the order of the code. *)
Definition align_gated (b : block) (pop central satellite : string) (d : dict (option val)) : res (dict (option val)) :=
  let s := ia_section pop in
  bind (if String.eqb central "halo_mass"
        then bind (bget b s "beta_sat") (fun x => bind (bget b s "M_pivot") (fun y =>
             Ok (dupdate d [("beta_sat", Some x); ("mpivot_sat", Some y)])))
        else Ok (dupdate d [("beta_sat", None); ("mpivot_sat", None)])) (fun d =>
  if String.eqb satellite "halo_mass"
  then bind (bget b s "beta") (fun x => bind (bget b s "M_pivot") (fun y =>
       Ok (dupdate d [("beta_cen", Some x); ("mpivot_cen", Some y)])))
  else Ok (dupdate d [("beta_cen", None); ("mpivot_cen", None)])).
Definition align_gammas (b : block) (pop : string) (d : dict (option val)) : res (dict (option val)) :=
  let s := ia_section pop in
  bind (bget b s "gamma_1h_radial_slope") (fun x => bind (bget b s "gamma_1h_amplitude") (fun y =>
  bind (bget b s "gamma_2h_amplitude") (fun z =>
  Ok (dupdate d [("gamma_1h_slope", Some x); ("gamma_1h_amplitude", Some y); ("gamma_2h_amplitude", Some z)])))).
(** 908-964. *)
Definition align_params (b : block) (pop central satellite : string) : res (dict (option val)) :=
  bind (align_gated b pop central satellite []) (fun d =>
  align_gammas b pop (dupdate d [("nmass", Some (VNum 5)); ("n_hankel", Some (VNum 350)); ("nk", Some (VNum 10));
                                 ("ell_max", Some (VNum 6))])).
(** 976-1028. *)
Definition align_params_2 (b : block) (pop2 central satellite : string) (d : dict (option val)) : res (dict (option val)) :=
  bind (align_gated b pop2 central satellite d) (align_gammas b pop2).

(** ** execute *)
Record write := { w_sec : string; w_key : string; w_val : option (nat -> nat -> R) }.
Definition note (s k : string) : write := {| w_sec := s; w_key := k; w_val := None |}.

(** What execute uses from elsewhere. *)
Record ext := {
  xa : api;
  x_table : Type;                       (* a beta_nl table *)
  x_base : Type;                        (* the keyword arguments of lines 729-802 *)
  x_nl : Type;                          (* the re-gridded non-linear spectrum, 841-844 *)
  x_missing : string;                   (* exception class of a missing block value *)
  x_read_base : block -> res x_base;
  x_read_nl : block -> res x_nl;
  x_compute_bnl : block -> res x_table; (* NonLinearBias(...).bnl, 809-828 *)
  (* Spectra.update in place: the object afterwards, also when it raises *)
  x_update : obj xa -> prm xa -> obj xa * res unit;
  (* keyword dictionaries *)
  x_full : x_base -> option x_table -> option x_nl -> option (dict (option val) * dict hval * settings) ->
           option (dict (option val)) -> prm xa;
  x_hod : settings -> prm xa;
  x_two : settings -> dict (option val) -> prm xa;
  (* the output grid read from the block, 738-742 *)
  x_grid : block -> (nat * A1) * (nat * A1);
  (* attribute reads that may raise *)
  x_matter : obj xa -> res unit;
  x_bins : obj xa -> res nat;
  x_obs_bins : obj xa -> res (option nat) }.

Record config := {
  g_mm : bool; g_gg : bool; g_gm : bool; g_gI : bool; g_mI : bool; g_II : bool;
  g_response : bool; g_split : bool; g_mode : option string; g_poisson : string; g_hod_model : string;
  g_settings : settings; g_ia_1 : settings; g_ia_2 : settings; g_obs : settings; g_save_obs : bool;
  g_hod_section : string; g_hod_values : string; g_hod_section_ia : string; g_obs_section : string;
  g_pop1 : string; g_pop2 : string; g_central : string; g_satellite : string;
  g_nbins : nat; g_update_bnl : nat }.
(** 204-206, 1030. *)
Definition galaxy (c : config) : bool := (g_gg c || g_gm c)%bool.
Definition alignment (c : config) : bool := (g_gI c || g_mI c || g_II c)%bool.
Definition want_hod (c : config) : bool := negb (g_mm c && negb (galaxy c)).
Definition mode_is (c : config) (m : string) : bool := match g_mode c with Some x => String.eqb x m | None => false end.

Section Execute.
  Variable X : ext.
  (** What survives between calls: the beta_nl cache and the Spectra object. *)
  Record pst := { p_calls : nat; p_cached : option (x_table X); p_power : obj (xa X) }.
  (** State, log and exceptions. *)
  Definition M (A : Type) := pst * list write -> pst * list write * res A.
  Definition ret {A} (a : A) : M A := fun s => (s, Ok a).
  Definition bindM {A B} (m : M A) (f : A -> M B) : M B :=
    fun s => let '(s', r) := m s in match r with Ok a => f a s' | Err e => (s', Err e) end.
  Definition lift {A} (r : res A) : M A := fun s => (s, r).
  Definition log (w : list write) : M unit := fun s => ((fst s, (snd s ++ w)%list), Ok tt).
  Definition get : M pst := fun s => (s, Ok (fst s)).
  Definition put (p : pst) : M unit := fun s => ((p, snd s), Ok tt).
  Definition when {A} (c : bool) (m : M A) : M (option A) :=
    if c then bindM m (fun a => ret (Some a)) else ret None.
  Definition when_ (c : bool) (m : M unit) : M unit := if c then m else ret tt.

  (** 804-839  the beta_nl cache. *)
  Definition bnl_step (c : config) (b : block) : M (x_table X) :=
    bindM get (fun s =>
    if Nat.eqb (g_update_bnl c) 0 then lift (Err "ZeroDivisionError")
    else bindM (if Nat.eqb (Nat.modulo (p_calls s) (g_update_bnl c)) 0
                then bindM (lift (x_compute_bnl X b)) (fun t =>
                     bindM (put {| p_calls := p_calls s; p_cached := Some t; p_power := p_power s |}) (fun _ => ret t))
                else match p_cached s with Some t => ret t | None => lift (Err "None") end)
           (fun t => bindM get (fun s' =>
            bindM (put {| p_calls := S (p_calls s); p_cached := p_cached s'; p_power := p_power s' |}) (fun _ => ret t)))).

  (** power.update(...). *)
  Definition update_power (q : prm (xa X)) : M unit :=
    bindM get (fun s => let '(o, r) := x_update X (p_power s) q in
    bindM (put {| p_calls := p_calls s; p_cached := p_cached s; p_power := o |}) (fun _ => lift r)).
  Definition power : M (obj (xa X)) := bindM get (fun s => ret (p_power s)).

  (** 367-427  save_matter_results: values are read before anything is written. *)
  Definition matter_keys : list write :=
    map (fun p => note (fst p) (snd p))
      [("concentration_m", "c"); ("concentration_sat", "c"); ("nfw_scale_radius_m", "rs"); ("nfw_scale_radius_sat", "rs");
       ("virial_radius", "m_h"); ("virial_radius", "rvir_m"); ("virial_radius", "rvir_sat");
       ("fourier_nfw_profile", "z"); ("fourier_nfw_profile", "m_h"); ("fourier_nfw_profile", "k_h");
       ("fourier_nfw_profile", "ukm"); ("fourier_nfw_profile", "uksat");
       ("density", "mean_density0"); ("density", "rho_crit"); ("density", "mean_density_z"); ("density", "rho_halo"); ("density", "z");
       ("hmf", "dndlnmh"); ("hmf", "nu"); ("hmf", "neff"); ("hmf", "sigma8_z"); ("halobias", "b_hb");
       ("cosmological_parameters", "fnu")].
  Definition save_matter : M unit := bindM power (fun o => bindM (lift (x_matter X o)) (fun _ => log matter_keys)).

  (** 430-502  save_hod_results. *)
  Definition hod_names : list string :=
    ["z"; "mass"; "N_sat"; "N_cen"; "N_tot"; "f_star"; "number_density_cen"; "number_density_sat"; "number_density_tot";
     "central_fraction"; "satellite_fraction"; "average_halo_mass"].
  Definition hod_keys (sec : string) (bins : nat) : list write :=
    note sec "nbins" ::
    flat_map (fun nb => map (fun n => note sec (n ++ suffix bins nb)) hod_names) (seq 0 bins).
  Definition save_hod (sec : string) : M nat :=
    bindM power (fun o => bindM (lift (x_bins X o)) (fun bins =>
    bindM (log (hod_keys sec bins)) (fun _ => ret bins))).

  (** 505-571  save_obs_results: the five settings are looked up for every bin. *)
  Definition obs_settings_ok (d : settings) : res unit :=
    bind (lookup_key d "obs_min") (fun _ => bind (lookup_key d "obs_max") (fun _ => bind (lookup_key d "zmin") (fun _ =>
    bind (lookup_key d "zmax") (fun _ => bind (lookup_key d "nz") (fun _ => Ok tt))))).
  Definition obs_names : list string := ["obs_val"; "obs_func"; "obs_func_c"; "obs_func_s"].
  Fixpoint obs_loop (d : settings) (sec : string) (nbs : list nat) : M unit :=
    match nbs with
    | [] => ret tt
    | nb :: nbs => bindM (lift (obs_settings_ok d)) (fun _ =>
                   bindM (log (map (fun n => note sec (n ++ "_" ++ dec (nb + 1))) obs_names)) (fun _ => obs_loop d sec nbs))
    end.
  Definition save_obs (d : settings) (sec : string) (bins : nat) : M unit :=
    bindM (log [note sec "obs_func_definition"]) (fun _ => obs_loop d sec (seq 0 bins)).

  (** results.results([mode], ['1h', '2h', 'tot']) and the three attributes. *)
  Definition attr (o : option arr3) : res arr3 := match o with Some v => Ok v | None => Err "TypeError" end.
  Definition ask (u : ups (xa X)) (mode : string) : M (ups (xa X) * (arr3 * arr3 * arr3)) :=
    let '(u', r) := results u [mode] ["1h"; "2h"; "tot"] in
    lift (bind r (fun _ => match us_out u' mode with
                   | None => Err "AttributeError"
                   | Some st => bind (attr (st_1h st)) (fun a => bind (attr (st_2h st)) (fun b => bind (attr (st_tot st)) (fun t =>
                                Ok (u', (a, b, t)))))
                   end)).
  (** 574-579  save_pk_to_grid. *)
  Definition pk_grid (base suf : string) (v : arr3 * arr3 * arr3) (nb : nat) : list write :=
    let s := base ++ suf in
    [{| w_sec := s; w_key := "p_k_1h"; w_val := Some (r_val (fst (fst v)) nb) |};
     {| w_sec := s; w_key := "p_k_2h"; w_val := Some (r_val (snd (fst v)) nb) |};
     {| w_sec := s; w_key := "p_k"; w_val := Some (r_val (snd v) nb) |}].
  (** The loops over bins, 1078-1098 and the like; [extra] is the linear bias. *)
  Definition save_bins (base : string) (extra : option (string * string)) (bins : nat) (v : arr3 * arr3 * arr3) : list write :=
    flat_map (fun nb => (pk_grid base (suffix bins nb) v nb ++
      match extra with Some (s, k) => [note (s ++ suffix bins nb) k] | None => [] end)%list) (seq 0 bins).
  Definition do_bins (want : bool) (mode base : string) (extra : option (string * string)) (bins : nat) (u : ups (xa X))
    : M (ups (xa X)) :=
    if want then bindM (ask u mode) (fun p => bindM (log (save_bins base extra bins (snd p))) (fun _ => ret (fst p)))
    else ret u.

  (** The UpsampledSpectra objects of 1035-1043 and 1139-1147; the model is reference 0. *)
  Definition new_results (b : block) (q : prm (xa X)) (frac : option (nat * A1)) (fz : option (nat * A1)) (two : option (prm (xa X)))
      (o : obj (xa X)) : ups (xa X) :=
    let g := x_grid X b in
    new_ups {| u_nz := fst (fst g); u_z := snd (fst g); u_nk := fst (snd g); u_k := snd (snd g);
               u_fz := fz; u_f := frac; u_model := Some 0%nat; u_m1 := q; u_m2 := two; u_fill := Extrapolate |}
            (fun _ => o).

  (** 684-1204  execute. *)
  Definition execute (c : config) (b : block) : M unit :=
    bindM (lift (x_read_base X b)) (fun base =>
    bindM (when (mode_is c "bnl") (bnl_step c b)) (fun beta =>
    bindM (when (g_response c || mode_is c "fortuna") (lift (x_read_nl X b))) (fun nl =>
    bindM (when (galaxy c || alignment c)
             (bindM (lift (poisson_params (x_missing X) b (g_poisson c))) (fun pp =>
              bindM (lift (hod_params b (g_hod_values c) (g_hod_model c) (g_nbins c))) (fun hp =>
              ret (pp, hp, g_settings c))))) (fun hod =>
    bindM (when (alignment c) (lift (align_params b (g_pop1 c) (g_central c) (g_satellite c)))) (fun al =>
    bindM (when (g_split c)
             (match al with
              | Some d => lift (align_params_2 b (g_pop2 c) (g_central c) (g_satellite c) d)
              | None => ret []
              end)) (fun al2 =>
    let kwargs := x_full X base beta nl hod al in
    bindM (update_power kwargs) (fun _ =>
    bindM power (fun o =>
    let u := new_results b kwargs None None None o in
    bindM save_matter (fun _ =>
    bindM (when (want_hod c) (save_hod (g_hod_section c))) (fun bins =>
    bindM (when_ (want_hod c)
             (bindM (lift (x_obs_bins X o)) (fun n =>
              match n with
              | Some n => when_ (g_save_obs c) (save_obs (g_obs c) (g_obs_section c) n)
              | None => ret tt
              end))) (fun _ =>
    let bins := match bins with Some n => n | None => 0%nat end in
    bindM (if (g_mm c || g_response c)%bool
           then bindM (ask u "mm") (fun p =>
                bindM (when_ (negb (g_response c)) (log (pk_grid "matter_power_nl" "" (snd p) 0))) (fun _ => ret (fst p)))
           else ret u) (fun u =>
    bindM (do_bins (g_gg c) "gg" "galaxy_power" (Some ("galaxy_linear_bias", "bg_linear")) bins u) (fun u =>
    bindM (do_bins (g_gm c) "gm" "matter_galaxy_power" (Some ("galaxy_matter_linear_bias", "bgm_linear")) bins u) (fun u =>
    when_ (alignment c)
      (bindM (update_power (x_hod X (g_ia_1 c))) (fun _ =>
       bindM (save_hod (g_hod_section_ia c)) (fun bins =>
       bindM power (fun o =>
       let g := x_grid X b in
       let u := if g_split c
                then new_results b kwargs (Some (fst (fst g), fun _ => 1%R)) (Some (fst g))
                       (Some (x_two X (g_ia_2 c) (match al2 with Some d => d | None => [] end))) o
                else AddModel.step u (ECaller 0%nat o) in
       bindM (do_bins (g_II c) "ii" "intrinsic_power" None bins u) (fun u =>
       bindM (do_bins (g_gI c) "gi" "galaxy_intrinsic_power" None bins u) (fun u =>
       bindM (do_bins (g_mI c) "mi" "matter_intrinsic_power" None bins u) (fun _ => ret tt))))))))))))))))))))).
End Execute.
