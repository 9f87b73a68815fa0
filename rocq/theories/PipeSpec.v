(** Vocabulary for the statements about the pipeline module. *)
From Coq Require Import Decimal DecimalString Ascii.
From Verif Require Import Base Spec Interp HodModel PkModel AddModel AddSpec PipeModel.
Open Scope string_scope.

(** Name of bin number [nb] (from 0) out of [bins]. *)
Definition bin_name (base : string) (bins nb : nat) : string :=
  if Nat.eq_dec bins 1 then base else base ++ "_" ++ NilEmpty.string_of_uint (Nat.to_uint (S nb)).

(** What the parameters of a Poisson or HOD model are. *)
Definition required_poisson (ty : string) : list string :=
  if string_dec ty "constant" then ["poisson"]
  else if string_dec ty "power_law" then ["poisson"; "pivot"; "slope"] else [].
Definition required_hod (model : string) : list string :=
  if string_dec model "Zheng" then ["log10_Mmin"; "sigma"; "log10_M0"; "log10_M1"; "alpha"]
  else if string_dec model "Zhai" then ["log10_Mmin"; "sigma"; "log10_Msat"; "log10_Mcut"; "alpha"]
  else if string_dec model "Cacciato" then ["log10_obs_norm_c"; "log10_m_ch"; "g1"; "g2"; "sigma_log10_O_c"; "norm_s";
                                            "pivot"; "alpha_s"; "beta_s"; "b0"; "b1"; "b2"]
  else [].
(** The block names a HOD model needs: one per parameter, or one per parameter and bin. *)
Definition hod_needs (model : string) (nbins : nat) (name : string) : Prop :=
  exists p, In p (required_hod model) /\
    (model = "Cacciato" /\ name = p \/ model <> "Cacciato" /\ exists nb, (nb < nbins)%nat /\ name = bin_name p nbins nb).

Definition digits : list ascii := list_ascii_of_string "0123456789".
Fixpoint last_char (s : string) (d : ascii) : ascii := match s with EmptyString => d | String c t => last_char t c end.
(** Names ending in a letter. *)
Definition unnumbered (s : string) : Prop := ~ In (last_char s "0") digits.
Definition scalar (v : val) : Prop := match v with VNum _ | VStr _ => True | _ => False end.
Definition as_param (v : val) : option val := match v with VStr s => if string_dec s "None" then None else Some v | _ => Some v end.
(** Content of the collected dictionary. *)
Definition collected (b : block) (sec model : string) (nbins : nat) (p : string) (v : option hval) : Prop :=
  if string_dec model "Cacciato" then exists x, b sec p = Some x /\ v = Some (HVal x)
  else exists l, v = Some (HArr l) /\ List.length l = nbins /\
       forall nb, (nb < nbins)%nat -> b sec (bin_name p nbins nb) = Some (nth nb l VOther).
Definition param_missing (b : block) (sec model : string) (nbins : nat) (p : string) : Prop :=
  if string_dec model "Cacciato" then b sec p = None else exists nb, (nb < nbins)%nat /\ b sec (bin_name p nbins nb) = None.
Definition gate (opt : string) (v : option val) : option val := if string_dec opt "halo_mass" then v else None.
(** The dictionary of one population. *)
Definition population (b : block) (pop central satellite : string) (d : dict (option val)) : Prop :=
  dget d "beta_sat" = Some (gate central (b ("intrinsic_alignment_parameters" ++ pop) "beta_sat")) /\
  dget d "mpivot_sat" = Some (gate central (b ("intrinsic_alignment_parameters" ++ pop) "M_pivot")) /\
  dget d "beta_cen" = Some (gate satellite (b ("intrinsic_alignment_parameters" ++ pop) "beta")) /\
  dget d "mpivot_cen" = Some (gate satellite (b ("intrinsic_alignment_parameters" ++ pop) "M_pivot")) /\
  dget d "gamma_1h_slope" = Some (b ("intrinsic_alignment_parameters" ++ pop) "gamma_1h_radial_slope") /\
  dget d "gamma_1h_amplitude" = Some (b ("intrinsic_alignment_parameters" ++ pop) "gamma_1h_amplitude") /\
  dget d "gamma_2h_amplitude" = Some (b ("intrinsic_alignment_parameters" ++ pop) "gamma_2h_amplitude") /\
  dget d "nmass" = Some (Some (VNum 5)) /\ dget d "n_hankel" = Some (Some (VNum 350)) /\
  dget d "nk" = Some (Some (VNum 10)) /\ dget d "ell_max" = Some (Some (VNum 6)).
Definition singleton_of (P : R -> list R -> Prop) (d : settings) (k : string) (new : option sval) : Prop :=
  exists l v, dget d k = Some (SArr l) /\ new = Some (SArr [v]) /\ P v l.
Definition least (v : R) (l : list R) : Prop := In v l /\ forall x, In x l -> (v <= x)%R.
Definition greatest (v : R) (l : list R) : Prop := In v l /\ forall x, In x l -> (x <= v)%R.

(** The request handed to UpsampledSpectra for one population. *)
Definition request_single (X : ext) (b : block) (q : prm (xa X)) : uparams (xa X) :=
  {| u_nz := fst (fst (x_grid X b)); u_z := snd (fst (x_grid X b)); u_nk := fst (snd (x_grid X b)); u_k := snd (snd (x_grid X b));
     u_fz := None; u_f := None; u_model := Some 0%nat; u_m1 := q; u_m2 := None; u_fill := Extrapolate |}.

(** The log entries of one kind: three spectra per bin, with the values UpsampledSpectra answers. *)
Section Kind.
  Context {A : api}.
  Definition written (p : uparams A) (heap : nat -> obj A) (mode base : string) (bins : nat) (lg : list write) : Prop :=
    forall nb comp key, (nb < bins)%nat -> In (comp, key) [("1h", "p_k_1h"); ("2h", "p_k_2h"); ("tot", "p_k")] ->
    exists v, answer p heap mode comp = Ok v /\
      In {| w_sec := bin_name base bins nb; w_key := key; w_val := Some (r_val v nb) |} lg.
End Kind.
Definition galaxy_kinds (c : config) : list (string * string) :=
  ((if g_gg c then [("gg", "galaxy_power")] else []) ++ (if g_gm c then [("gm", "matter_galaxy_power")] else []))%list.
Definition alignment_kinds (c : config) : list (string * string) :=
  ((if g_II c then [("ii", "intrinsic_power")] else []) ++ (if g_gI c then [("gi", "galaxy_intrinsic_power")] else []) ++
   (if g_mI c then [("mi", "matter_intrinsic_power")] else []))%list.
(** The request for two populations with a constant fraction 1 of the first. *)
Definition request_split (X : ext) (b : block) (q q2 : prm (xa X)) : uparams (xa X) :=
  {| u_nz := fst (fst (x_grid X b)); u_z := snd (fst (x_grid X b)); u_nk := fst (snd (x_grid X b)); u_k := snd (snd (x_grid X b));
     u_fz := Some (fst (x_grid X b)); u_f := Some (fst (fst (x_grid X b)), fun _ => 1%R);
     u_model := Some 0%nat; u_m1 := q; u_m2 := Some q2; u_fill := Extrapolate |}.
Definition option_eq_dec (o : option string) (x : string) : {o = Some x} + {o <> Some x}.
Proof. destruct o as [y|]; [|right; discriminate]. destruct (string_dec y x) as [->|N]; [left; reflexivity|right; congruence]. Defined.
(** What a run reads before it touches the Spectra object. *)
Record inputs (X : ext) := {
  i_base : x_base X; i_beta : option (x_table X); i_nl : option (x_nl X);
  i_hod : option (dict (option val) * dict hval * settings);
  i_align : option (dict (option val)); i_align2 : option (dict (option val)) }.
Definition reads (X : ext) (c : config) (b : block) (st : pst X) (i : inputs X) : Prop :=
  x_read_base X b = Ok (i_base X i) /\
  (if option_eq_dec (g_mode c) "bnl" then exists t, snd (bnl_step X c b (st, [])) = Ok t /\ i_beta X i = Some t
   else i_beta X i = None) /\
  (if orb (g_response c) (if option_eq_dec (g_mode c) "fortuna" then true else false)
   then exists n, x_read_nl X b = Ok n /\ i_nl X i = Some n else i_nl X i = None) /\
  (if orb (galaxy c) (alignment c)
   then exists pp hp, poisson_params (x_missing X) b (g_poisson c) = Ok pp /\
          hod_params b (g_hod_values c) (g_hod_model c) (g_nbins c) = Ok hp /\ i_hod X i = Some (pp, hp, g_settings c)
   else i_hod X i = None) /\
  (if alignment c then exists d, align_params b (g_pop1 c) (g_central c) (g_satellite c) = Ok d /\ i_align X i = Some d
   else i_align X i = None) /\
  (if andb (g_split c) (alignment c)
   then exists d d2, i_align X i = Some d /\ align_params_2 b (g_pop2 c) (g_central c) (g_satellite c) d = Ok d2 /\ i_align2 X i = Some d2
   else True).
Definition kwargs (X : ext) (i : inputs X) : prm (xa X) := x_full X (i_base X i) (i_beta X i) (i_nl X i) (i_hod X i) (i_align X i).
Definition second_params (X : ext) (c : config) (i : inputs X) : prm (xa X) :=
  x_two X (g_ia_2 c) (match i_align2 X i with Some d => d | None => [] end).
(** Log entries holding a power spectrum. *)
Definition is_spectrum (w : write) : Prop := w_val w <> None.
Definition alignment_request (X : ext) (c : config) (b : block) (i : inputs X) : uparams (xa X) :=
  if g_split c then request_split X b (kwargs X i) (second_params X c i) else request_single X b (kwargs X i).
(** The sections execute names by itself; several carry bin numbers. *)
Definition pipeline_sections : list string :=
  ["concentration_m"; "concentration_sat"; "nfw_scale_radius_m"; "nfw_scale_radius_sat"; "virial_radius"; "fourier_nfw_profile";
   "density"; "hmf"; "halobias"; "cosmological_parameters"; "matter_power_nl"; "galaxy_power"; "galaxy_linear_bias";
   "matter_galaxy_power"; "galaxy_matter_linear_bias"; "intrinsic_power"; "galaxy_intrinsic_power"; "matter_intrinsic_power"].
Definition free_section (s : string) : Prop :=
  forall base n nb, In base pipeline_sections -> (nb < n)%nat -> s <> bin_name base n nb.
Definition place (w : write) : string * string := (w_sec w, w_key w).
(** What happened to the beta_nl cache in a sequence of calls: the blocks of the calls that got as far
    as a table, with the table each used.  Calls may raise at any point; the Spectra object may be anything. *)
Inductive history (X : ext) (c : config) : pst X -> list (block * x_table X) -> Prop :=
| history_new o : history X c {| p_calls := 0; p_cached := None; p_power := o |} []
| history_used b st st' l t lg lg' r : history X c st l -> execute X c b (st, lg) = ((st', lg'), r) ->
    (exists base, x_read_base X b = Ok base) -> snd (bnl_step X c b (st, [])) = Ok t -> history X c st' (l ++ [(b, t)])
| history_stopped b st st' l e lg lg' r : history X c st l -> execute X c b (st, lg) = ((st', lg'), r) ->
    (exists e', x_read_base X b = Err e') \/ snd (bnl_step X c b (st, [])) = Err e -> history X c st' l.
(** The same configuration with another second population. *)
Definition with_second (c : config) (ia2 : settings) (pop2 : string) : config :=
  {| g_mm := g_mm c; g_gg := g_gg c; g_gm := g_gm c; g_gI := g_gI c; g_mI := g_mI c; g_II := g_II c;
     g_response := g_response c; g_split := g_split c; g_mode := g_mode c; g_poisson := g_poisson c; g_hod_model := g_hod_model c;
     g_settings := g_settings c; g_ia_1 := g_ia_1 c; g_ia_2 := ia2; g_obs := g_obs c; g_save_obs := g_save_obs c;
     g_hod_section := g_hod_section c; g_hod_values := g_hod_values c; g_hod_section_ia := g_hod_section_ia c;
     g_obs_section := g_obs_section c; g_pop1 := g_pop1 c; g_pop2 := pop2; g_central := g_central c; g_satellite := g_satellite c;
     g_nbins := g_nbins c; g_update_bnl := g_update_bnl c |}.
(** An entry of one of the given kinds. *)
Definition from_kinds (kinds : list (string * string)) (bins : nat) (w : write) : Prop :=
    exists mode base nb, In (mode, base) kinds /\ (nb < bins)%nat /\ w_sec w = bin_name base bins nb /\
      In (w_key w) ["p_k_1h"; "p_k_2h"; "p_k"].
