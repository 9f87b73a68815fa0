(** Model of cosmosis_modules/legacy/hod/hod_interface.py and hod_lib_class.py.  Definitions only.
    The formulas at one mass and one observable (hod_lib_class.py 162-266, 349-421, 455-536) have
    the bodies of their namesakes in src/onepower/hod.py and are those of HodModel.  Simplified:
    an empty grid is refused in setup and a mass function, bias or observable grid interp1d would
    not take before anything of the bin is written, both with ValueError; the nodes of a table
    increase; the data block has no booleans, observable_z is an integer; names of the block are
    compared with their case; the messages are left out. *)
From Coq Require Import ZArith.
From Verif Require Import Base Quad Interp FftModel PipeModel HodModel OptModel ChainModel PredModel MiniModel AupModel LiaModel.
Open Scope R_scope.

(** ** hod_lib_class.py *)
(** One object of a HOD class: its arguments.  [lo_obs j o], [lo_dndlnm j m] over the redshifts. *)
Record lh_object := { lo_model : string; lo_kw : string -> R; lo_Acen : option R; lo_Asat : option R;
  lo_nz : nat; lo_nm : nat; lo_mass : A1; lo_dndlnm : A2; lo_nobs : nat; lo_obs : A2 }.
Section LhClass.
  Variable x : lh_object.
  (** 116-160. *)
  Definition lh_cacciato : cacciato_par :=
    {| ca_log10_obs_norm_c := lo_kw x "log10_obs_norm_c"; ca_log10_m_ch := lo_kw x "log10_m_ch"; ca_g1 := lo_kw x "g1"; ca_g2 := lo_kw x "g2";
       ca_sigma := lo_kw x "sigma_log10_O_c"; ca_norm_s := lo_kw x "norm_s"; ca_pivot := lo_kw x "pivot"; ca_alpha_s := lo_kw x "alpha_s";
       ca_beta_s := lo_kw x "beta_s"; ca_b0 := lo_kw x "b0"; ca_b1 := lo_kw x "b1"; ca_b2 := lo_kw x "b2"; ca_A_cen := lo_Acen x; ca_A_sat := lo_Asat x |}.
  (** 268-279, 455-467, 512-524. *)
  Definition lh_cen (j m : nat) : R :=
    decorate_cen (lo_Acen x)
      (if String.eqb (lo_model x) "Cacciato" then simpson (lo_nobs x) (fun o => cof_cen lh_cacciato (lo_obs x j o) (lo_mass x m)) (lo_obs x j)
       else erf_cen (lo_kw x "sigma") (pow10 (lo_kw x "log10_Mmin")) (lo_mass x m)).
  (** 281-292, 469-478, 526-536. *)
  Definition lh_sat (j m : nat) : R :=
    decorate_sat (lo_Asat x)
      (if String.eqb (lo_model x) "Cacciato" then simpson (lo_nobs x) (fun o => cof_sat lh_cacciato (lo_obs x j o) (lo_mass x m)) (lo_obs x j)
       else if String.eqb (lo_model x) "Zheng" then zheng_sat (pow10 (lo_kw x "log10_M0")) (pow10 (lo_kw x "log10_M1")) (lo_kw x "alpha") (lo_mass x m)
       else zhai_sat (pow10 (lo_kw x "log10_Msat")) (pow10 (lo_kw x "log10_Mcut")) (lo_kw x "alpha") (lo_mass x m)).
  (** 294-296, 480-482, 538-540. *)
  Definition lh_tot (j m : nat) : R := lh_cen j m + lh_sat j m.
  (** 24-54  number densities. *)
  Definition lh_density (n : A2) (j : nat) : R := simpson (lo_nm x) (fun m => n j m * lo_dndlnm x j m / lo_mass x m) (lo_mass x).
  (** 56-60. *)
  Definition lh_mass (n : A2) (j : nat) : R := simpson (lo_nm x) (fun m => n j m * lo_dndlnm x j m) (lo_mass x).
  (** 80-102. *)
  Definition lh_bias (hbias n : A2) (j : nat) : R := simpson (lo_nm x) (fun m => n j m * hbias j m * lo_dndlnm x j m / lo_mass x m) (lo_mass x).
  (** 316-323. *)
  Definition lh_fstar (j m : nat) : R :=
    simpson (lo_nobs x) (fun o => cof lh_cacciato (lo_obs x j o) (lo_mass x m) * lo_obs x j o) (lo_obs x j) / lo_mass x m.
  (** 193-236. *)
  Definition lh_obs_func (f : cacciato_par -> R -> R -> R) (j o : nat) : R :=
    simpson (lo_nm x) (fun m => f lh_cacciato (lo_obs x j o) (lo_mass x m) * lo_dndlnm x j m / lo_mass x m) (lo_mass x).
End LhClass.

(** ** setup, 36-121 *)
Record hconfig := { h_obs : A3; h_nbins : nat; h_nz : nat; h_nobs : nat; h_z : A2; h_zmed : R; h_bias : bool; h_save : bool; h_mode : string;
  h_section : string; h_values : string; h_obsz : bool; h_obssec : string; h_unit : string; h_model : string }.
(** 15-23  load_data on the rows of the file; a single row is squeezed to three scalars. *)
Definition load_data (rows : list (R * R * R)) : res (list (R * R * R)) :=
  match rows with
  | [] => Err "ValueError"
  | [_] => Err "IndexError"
  | (_, lo, hi) :: _ => if Rlt_dec hi lo then Err "ValueError" else Ok rows
  end.
Section LhSetup.
  Variables missing wrong : string.
  (** np.loadtxt(_, usecols=(0, 1, 2)) by rows, and open(_, 'rb'). *)
  Variable loadtxt : string -> res (list (R * R * R)).
  Variable opens : string -> res unit.
  Variable o : options.
  Definition nonempty (n : nat) : res unit := if Nat.eqb n 0 then Err "ValueError" else Ok tt.
  (** 57-104: the bins of observables and redshifts.  pickle is not imported. *)
  Definition lh_bins : res (bool * nat * nat * A2 * A2 * A2) :=
    if OptModel.has_value o "observables_file" then
      f <- get_string missing wrong o "observables_file" None ;; rows <- loadtxt f ;; t <- load_data rows ;;
      Ok (true, 1%nat, List.length t, (fun _ j => fst (fst (nth j t (0, 0, 0)))), (fun _ j => log10 (snd (fst (nth j t (0, 0, 0))))), (fun _ j => log10 (snd (nth j t (0, 0, 0)))))
    else if (OptModel.has_value o "mass_lim" && OptModel.has_value o "mass_lim_low")%bool then
      f <- get_string missing wrong o "mass_lim" None ;; f' <- get_string missing wrong o "mass_lim_low" None ;;
      z0 <- option_at missing o "zmin" ;; z1 <- option_at missing o "zmax" ;; n <- get_count missing o "nz" ;;
      u <- opens f ;; Err "NameError"
    else
      lo <- get_array missing o "log10_obs_min" ;; hi <- get_array missing o "log10_obs_max" ;; z0 <- get_array missing o "zmin" ;; z1 <- get_array missing o "zmax" ;;
      n <- get_count missing o "nz" ;;
      (if (Nat.eqb (List.length hi) (List.length lo) && Nat.eqb (List.length z0) (List.length lo) && Nat.eqb (List.length z1) (List.length lo))%bool
       then Ok (false, List.length lo, n, (fun b j => linspace (nth b z0 0) (nth b z1 0) n j), (fun b _ => nth b lo 0), (fun b _ => nth b hi 0))
       else Err "ValueError").
  (** 36-121. *)
  Definition lh_setup : res hconfig :=
    sec <- get_string missing wrong o "hod_section_name" None ;;
    values <- get_string missing wrong o "values_name" (Some "hod_parameters"%string) ;;
    obssec <- get_string missing wrong o "observable_section_name" (Some "stellar_mass_function"%string) ;;
    model <- get_string missing wrong o "hod_model" (Some "Cacciato"%string) ;;
    nobs <- get_int missing wrong o "nobs" (Some 200%Z) ;;
    bias <- get_bool missing wrong o "do_galaxy_linear_bias" (Some false) ;;
    save <- get_bool missing wrong o "save_observable" (Some true) ;;
    mode <- get_string missing wrong o "observable_mode" (Some "obs_z"%string) ;;
    zmed <- get_double missing wrong o "z_median" (Some (1 / 10)) ;;
    unit <- get_string missing wrong o "observable_h_unit" (Some "1/h^2"%string) ;;
    u <- (if existsb (String.eqb (lower unit)) ["1/h"; "1/h^2"]%string then Ok tt else Err "ValueError") ;;
    u <- (if (negb (String.eqb model "Cacciato") && save)%bool then Err "ValueError" else Ok tt) ;;
    t <- lh_bins ;;
    let '(obsz, nb, n, z, lo, hi) := t in
    u <- nonempty (nb * n * Z.to_nat nobs) ;;
    Ok {| h_obs := fun b j => logspace (lo b j) (hi b j) (Z.to_nat nobs); h_nbins := nb; h_nz := n; h_nobs := Z.to_nat nobs; h_z := z; h_zmed := zmed;
          h_bias := bias; h_save := save; h_mode := mode; h_section := lower sec; h_values := lower values; h_obsz := obsz; h_obssec := lower obssec;
          h_unit := lower unit; h_model := model |}.
End LhSetup.

(** ** execute, 123-316 *)
(** 25-34. *)
Definition legacy_parameters (m : string) : option (list string) :=
  if String.eqb m "Zheng" then Some ["log10_Mmin"; "sigma"; "log10_M0"; "log10_M1"; "alpha"]%string
  else if String.eqb m "Zhai" then Some ["log10_Mmin"; "sigma"; "log10_Msat"; "log10_Mcut"; "alpha"]%string
  else if String.eqb m "Cacciato" then
    Some ["log10_obs_norm_c"; "log10_m_ch"; "g1"; "g2"; "sigma_log10_O_c"; "norm_s"; "pivot"; "alpha_s"; "beta_s"; "b0"; "b1"; "b2"]%string
  else None.
(** What is written: put, put_double_array_1d, put_int, put_bool, or put_grid. *)
Inductive lput := Plain (s n : string) (v : bval) | Grid (s nx : string) (x : list R) (ny : string) (y : list R) (n : string) (t : list (list R)).
Section LhExecute.
  (** put_grid over a table that is there already: replaced ([over]) or refused. *)
  Variable over : bool.
  Variable c : hconfig.
  Definition do_put (p : lput) (b : dblock) : dblock * res unit :=
    match p with
    | Plain s n v => put_new b s n v
    | Grid s nx x ny y n t =>
        match b s n with
        | Some _ => if over then (put_axes_table b s nx x ny y n t, Ok tt) else (b, Err "BlockNameAlreadyExists")
        | None => (put_axes_table b s nx x ny y n t, Ok tt)
        end
    end.
  Fixpoint do_puts (l : list lput) (b : dblock) : dblock * res unit :=
    match l with [] => (b, Ok tt) | p :: l => then_ (do_put p b) (do_puts l) end.
  (** Statements that read first and write afterwards. *)
  Definition read_write (v : dblock -> res (list lput)) (b : dblock) : dblock * res unit :=
    match v b with Ok l => do_puts l b | Err e => (b, Err e) end.

  (** Arrays as lists. *)
  Definition row (n : nat) (f : A1) : list R := map f (seq 0 n).
  Definition grid2 (n m : nat) (f : A2) : list (list R) := map (fun j => row m (f j)) (seq 0 n).
  (** 158. *)
  Definition lh_suffix (nb : nat) : string := suffix (h_nbins c) nb.
  (** 161-166. *)
  Definition param_name (nb : nat) (p : string) : string := if String.eqb (h_model c) "Cacciato" then p else (p ++ lh_suffix nb)%string.
  Fixpoint lh_params (nb : nat) (l : list string) (b : dblock) : res (string -> R) :=
    match l with
    | [] => Ok (fun _ => 0)
    | p :: l =>
        v <- (if LiaModel.has_value b (h_values c) (param_name nb p) then block_num b (h_values c) (param_name nb p) else Err "Exception") ;;
        kw <- lh_params nb l b ;; Ok (fun q => if String.eqb q p then v else kw q)
    end.
  (** 154-155. *)
  Definition lh_assembly (b : dblock) (n : string) : res (option R) :=
    if LiaModel.has_value b (h_values c) n then v <- block_num b (h_values c) n ;; Ok (Some v) else Ok None.
  (** Everything execute takes from the block before the loop, 150-155. *)
  Record hinput := { i_dn : list (list R); i_mass : list R; i_z : list R; i_Acen : option R; i_Asat : option R }.
  Definition lh_input (b : dblock) : res hinput :=
    dn <- table_at b "hmf" "dndlnmh" ;; m <- array b "hmf" "m_h" ;; z <- array b "hmf" "z" ;;
    ac <- lh_assembly b "A_cen" ;; as_ <- lh_assembly b "A_sat" ;;
    Ok {| i_dn := dn; i_mass := m; i_z := z; i_Acen := ac; i_Asat := as_ |}.
  (** interp1d along the redshifts, 169-173. *)
  Definition table_fits (z : list R) (n : nat) (p : list (list R)) : bool :=
    (Nat.leb 2 (List.length z) && Nat.eqb (List.length p) (List.length z) && forallb (fun r => Nat.eqb (List.length r) n) p)%bool.
  Definition at_z (z : list R) (p : list (list R)) (q : R) (m : nat) : R := interp1d Extrapolate (List.length z) (at_ z) (fun i => entry p i m) q.
  (** 174-180, 251-266, 283-289  an object of the class. *)
  Definition lh_new (i : hinput) (kw : string -> R) (n : nat) (z : A1) (nobs : nat) (obs : A2) : lh_object :=
    {| lo_model := h_model c; lo_kw := kw; lo_Acen := i_Acen i; lo_Asat := i_Asat i; lo_nz := n; lo_nm := List.length (i_mass i); lo_mass := at_ (i_mass i);
       lo_dndlnm := fun j => at_z (i_z i) (i_dn i) (z j); lo_nobs := nobs; lo_obs := obs |}.
  Definition lh_bin (i : hinput) (kw : string -> R) (nb : nat) : lh_object := lh_new i kw (h_nz c) (h_z c nb) (h_nobs c) (h_obs c nb).
  (** 185. *)
  Definition some_negative (n m : nat) (f : A2) : bool :=
    existsb (fun j => existsb (fun k => if Rlt_dec (f j k) 0 then true else false) (seq 0 m)) (seq 0 n).
  (** 189-191. *)
  Definition h_factor (b : dblock) : res R :=
    if String.eqb (h_unit c) "1/h^2" then block_num b "cosmological_parameters" "h0" else Ok 1.
  Definition bin_grid (i : hinput) (nb : nat) (n : string) (f : A2) : lput :=
    let sfx := lh_suffix nb in
    Grid (h_section c) ("z" ++ sfx) (row (h_nz c) (h_z c nb)) ("mass" ++ sfx) (i_mass i) (n ++ sfx) (grid2 (h_nz c) (List.length (i_mass i)) f).
  Definition bin_arr (nb : nat) (n : string) (f : A1) : lput := Plain (h_section c) (n ++ lh_suffix nb) (BArr (row (h_nz c) f)).
  (** 161-209. *)
  Definition lh_occupation (i : hinput) (names : list string) (nb : nat) (b : dblock) : res (list lput) :=
    kw <- lh_params nb names b ;;
    u <- (if table_fits (i_z i) (List.length (i_mass i)) (i_dn i) then Ok tt else Err "ValueError") ;;
    let x := lh_bin i kw nb in
    u <- (if (some_negative (lo_nz x) (lo_nm x) (lh_sat x) || some_negative (lo_nz x) (lo_nm x) (lh_cen x))%bool then Err "ValueError" else Ok tt) ;;
    fs <- (if String.eqb (h_model c) "Cacciato" then h <- h_factor b ;; Ok [bin_grid i nb "f_star" (fun j m => lh_fstar x j m * h)] else Ok []) ;;
    Ok (fs ++ [bin_grid i nb "N_sat" (lh_sat x); bin_grid i nb "N_cen" (lh_cen x); bin_grid i nb "N_tot" (lh_tot x);
      bin_arr nb "number_density_cen" (lh_density x (lh_cen x)); bin_arr nb "number_density_sat" (lh_density x (lh_sat x));
      bin_arr nb "number_density_tot" (lh_density x (lh_tot x));
      bin_arr nb "central_fraction" (fun j => lh_density x (lh_cen x) j / lh_density x (lh_tot x) j);
      bin_arr nb "satellite_fraction" (fun j => lh_density x (lh_sat x) j / lh_density x (lh_tot x) j);
      bin_arr nb "average_halo_mass" (fun j => lh_mass x (lh_cen x) j / lh_density x (lh_cen x) j)])%list.
  (** 211-226. *)
  Definition lh_biases (i : hinput) (kw : string -> R) (nb : nat) (b : dblock) : res (list lput) :=
    if h_bias c then
      z <- array b "halobias" "z" ;; p <- table_at b "halobias" "b_hb" ;;
      u <- (if table_fits z (List.length (i_mass i)) p then Ok tt else Err "ValueError") ;;
      let x := lh_bin i kw nb in
      let hb := fun j => at_z z p (h_z c nb j) in
      Ok [bin_arr nb "galaxy_bias_centrals" (fun j => lh_bias x hb (lh_cen x) j / lh_density x (lh_tot x) j);
          bin_arr nb "galaxy_bias_satellites" (fun j => lh_bias x hb (lh_sat x) j / lh_density x (lh_tot x) j);
          bin_arr nb "b" (fun j => lh_bias x hb (lh_tot x) j / lh_density x (lh_tot x) j)]
    else Ok [].
  (** ndarray.min and max. *)
  Definition least (l : list R) : R := fold_right Rmin (hd 0 l) l.
  Definition most (l : list R) : R := fold_right Rmax (hd 0 l) l.
  Definition obs_values (nb : nat) : list R := flat_map (fun j => row (h_nobs c) (h_obs c nb j)) (seq 0 (h_nz c)).
  Definition all_obs : list R := flat_map obs_values (seq 0 (h_nbins c)).
  Definition all_z : list R := flat_map (fun nb => row (h_nz c) (h_z c nb)) (seq 0 (h_nbins c)).
  (** np.logspace(np.log10(l.min()), np.log10(l.max()), n). *)
  Definition obs_range (l : list R) (n : nat) : A1 := logspace (log10 (least l)) (log10 (most l)) n.
  Definition obs_grid (sfx n : string) (nz nobs : nat) (z : A1) (obs : A1) (f : A2) : lput :=
    Grid (h_obssec c) ("z_bin" ++ sfx) (row nz z) ("obs_val" ++ sfx) (row nobs obs) (n ++ sfx) (grid2 nz nobs (fun j o => ln ten * f j o * obs o)).
  (** 228-252. *)
  Definition lh_bin_obs (i : hinput) (kw : string -> R) (nb : nat) : list lput :=
    if (h_save c && String.eqb (h_mode c) "obs_z" && String.eqb (h_model c) "Cacciato")%bool then
      let x := lh_bin i kw nb in
      let range := obs_range (obs_values nb) (h_nobs c) in
      let sfx := ("_" ++ dec (nb + 1))%string in
      let f := fun cofx j o => interp1d (FillPair 0 0) (h_nobs c) (h_obs c nb j) (lh_obs_func x cofx j) (range o) in
      [obs_grid sfx "obs_func" (h_nz c) (h_nobs c) (h_z c nb) range (f cof);
       obs_grid sfx "obs_func_c" (h_nz c) (h_nobs c) (h_z c nb) range (f cof_cen);
       obs_grid sfx "obs_func_s" (h_nz c) (h_nobs c) (h_z c nb) range (f cof_sat)]
    else [].
  Definition lh_bin_execute (i : hinput) (names : list string) (nb : nat) (b : dblock) : dblock * res unit :=
    then_ (read_write (lh_occupation i names nb) b) (fun b1 =>
      match lh_params nb names b with
      | Ok kw => then_ (read_write (lh_biases i kw nb) b1) (do_puts (lh_bin_obs i kw nb))
      | Err e => (b1, Err e)
      end).
  (** 254-256. *)
  Definition lh_labels : list lput :=
    if h_save c then [Plain (h_obssec c) "obs_func_definition" (BStr "obs_func * obs * ln(10)"); Plain (h_obssec c) "observable_mode" (BStr (h_mode c))] else [].
  (** 258-314; [kw] are the parameters of the last bin.  cal_mean_obs_c has the shape (1, mass),
      so that .T[0] is its first mass. *)
  Definition lh_extended (i : hinput) (kw : string -> R) (b : dblock) : res (list lput) :=
    if String.eqb (h_model c) "Cacciato" then
      let z1 := linspace (least all_z) (most all_z) 15 in
      let range := obs_range all_obs 100 in
      let x := lh_new i kw 15 z1 100 (fun _ => range) in
      h <- h_factor b ;;
      let fs := Grid (h_section c) "z_extended" (row 15 z1) "mass_extended" (i_mass i) "f_star_extended" (grid2 15 (List.length (i_mass i)) (fun j m => lh_fstar x j m * h)) in
      let one := if (h_save c && String.eqb (h_mode c) "obs_onebin")%bool then
          [obs_grid "_1" "obs_func" 15 100 z1 range (lh_obs_func x cof);
           obs_grid "_1" "obs_func_c" 15 100 z1 range (lh_obs_func x cof_cen);
           obs_grid "_1" "obs_func_s" 15 100 z1 range (lh_obs_func x cof_sat)] else [] in
      let med := if (h_save c && String.eqb (h_mode c) "obs_zmed")%bool then
          let r := obs_range all_obs (h_nobs c) in
          let y := lh_new i kw 1 (fun _ => h_zmed c) (h_nobs c) (fun _ => r) in
          let p := fun n l => Plain (h_obssec c) n (BArr l) in
          [p "obs_val_med" (row (h_nobs c) r); p "obs_func_med" (row (h_nobs c) (fun o => ln ten * lh_obs_func y cof 0 o * r o));
           p "obs_func_med_c" (row (h_nobs c) (fun o => ln ten * lh_obs_func y cof_cen 0 o * r o));
           p "obs_func_med_s" (row (h_nobs c) (fun o => ln ten * lh_obs_func y cof_sat 0 o * r o));
           p "halo_mass_med" (i_mass i); p "mean_obs_halo_mass_relation" (row 1 (fun _ => mean_obs_c (lh_cacciato y) (at_ (i_mass i) 0)))]%string else [] in
      Ok (fs :: one ++ med)%list
    else Ok [].
  (** 144-316. *)
  Definition lh_execute (b : dblock) : dblock * res unit :=
    match legacy_parameters (h_model c) with
    | None => (b, Err "KeyError")
    | Some names =>
        then_ (do_puts [Plain (h_section c) "nbins" (BInt (Z.of_nat (h_nbins c))); Plain (h_section c) "observable_z" (BInt (if h_obsz c then 1 else 0))] b) (fun b =>
        match lh_input b with
        | Err e => (b, Err e)
        | Ok i =>
            then_ (in_turn (map (lh_bin_execute i names) (seq 0 (h_nbins c))) b) (fun b' =>
            then_ (do_puts lh_labels b') (fun b' =>
            match lh_params (h_nbins c - 1) names b with
            | Ok kw => read_write (lh_extended i kw) b'
            | Err e => (b', Err e)
            end))
        end)
    end.
End LhExecute.
