(** The block of the legacy power-spectrum module against a Spectra (src/onepower/pk.py). *)
From Coq Require Import ZArith.
From Verif Require Import Base Quad Interp IaModel HodModel PkModel PipeModel OptModel ChainModel AupModel LiaModel LiaSpec LhModel LhSpec LrModel LrSpec LkModel LkSpec.
Open Scope R_scope.

(** A table of the block at (z, k): linear in z, then log-linear in k. *)
Definition log_table (zs ks : list R) (t : list (list R)) (z k : R) : R :=
  exp (interp_lin (List.length ks) (fun a => ln (nth a ks 0)) (fun a => ln (interp_lin (List.length zs) (fun e => nth e zs 0) (fun e => nth a (nth e t []) 0) z)) (ln k)).
Definition power_says (b : dblock) (s : string) (S : spectra) (f : A2) : Prop :=
  exists ks zs t, b s "k_h"%string = Some (BArr ks) /\ b s "z"%string = Some (BArr zs) /\ b s "p_k"%string = Some (BTab t) /\
    forall j i, (j < s_nz S)%nat -> (i < s_nk S)%nat -> log_table zs ks t (s_zvec S j) (s_kvec S i) = f j i.
Definition within_grid (S : spectra) (f g : A2) : Prop := forall j i, (j < s_nz S)%nat -> (i < s_nk S)%nat -> f j i = g j i.

(** The block and the arrays kept in memory hold what [S] computes from; [pl] is its linear power.  No massive neutrinos. *)
Record halos_agree (dw : dblock -> list R -> A2 -> res A2) (nd : arrays) (c : kconfig) (b : dblock) (S : spectra) (pl : A2) : Prop := {
  hg_mass : holds_array (b "hmf"%string "m_h"%string) (s_nm S) (s_mass S); hg_z : holds_array (b "hmf"%string "z"%string) (s_nz S) (s_zvec S);
  hg_k : holds_array (b "fourier_nfw_profile"%string "k_h"%string) (s_nk S) (s_kvec S); hg_some : (1 <= s_nm S)%nat;
  hg_dn : holds_table (b "hmf"%string "dndlnmh"%string) (s_nz S) (s_nm S) (s_dndlnm S); hg_b : holds_table (b "halobias"%string "b_hb"%string) (s_nz S) (s_nm S) (s_bias S);
  hg_udm : forall j i m, (j < s_nz S)%nat -> (i < s_nk S)%nat -> (m < s_nm S)%nat -> nd_udm nd j i m = u_dm S j i m;
  hg_usat : forall j i m, (j < s_nz S)%nat -> (i < s_nk S)%nat -> (m < s_nm S)%nat -> nd_usat nd j i m = u_sat S j i m;
  hg_growth : exists zg d, b "growth_parameters"%string "z"%string = Some (BArr zg) /\ b "growth_parameters"%string "d_z"%string = Some (BArr d) /\
    forall j, (j < s_nz S)%nat -> interp_lin (List.length zg) (fun e => nth e zg 0) (fun e => nth e d 0) (s_zvec S j) = s_growth S j;
  hg_rho : exists rho, reads b "density" "mean_density0" rho /\ forall j, (j < s_nz S)%nat -> s_rho S j = rho;
  hg_fnu : reads b cosmology "fnu" 0; hg_oc : reads b cosmology "omega_c" (s_oc S); hg_om : reads b cosmology "omega_m" (s_om S); hg_ob : reads b cosmology "omega_b" (s_ob S);
  (* the linear power, de-wiggled if it is asked for or with the ingredients of Mead *)
  hg_lin : exists raw, power_says b "matter_power_lin" S raw /\
    if (kc_dewiggle c || match kc_mead c with Some Feedback | Some NoFeedback => true | _ => false end)%bool
    then forall ks v d, b "fourier_nfw_profile"%string "k_h"%string = Some (BArr ks) -> within_grid S v raw -> dw b ks v = Ok d -> within_grid S d pl
    else within_grid S raw pl;
  hg_nl : kc_response c = true -> exists pn, pk_nl S = Ok (Some pn) /\ power_says b "matter_power_nl" S pn;
  hg_smooth : s_mode S = Hmcode -> holds_array (b "hmf"%string "sigma8_z"%string) (s_nz S) (s_sigma8z S) /\ holds_array (b "hmf"%string "neff"%string) (s_nz S) (s_neff S);
  (* beta_nl, whose values at the least mass do not depend on the order of the masses *)
  hg_beta : s_mode S = Bnl -> exists B B', nd_beta nd = BetaArray B /\ beta_nl S = Ok B' /\
    forall j i m1 m2, (j < s_nz S)%nat -> (i < s_nk S)%nat -> (m1 < s_nm S)%nat -> (m2 < s_nm S)%nat -> B j m1 m2 i = B' j i m1 m2 /\ B' j i m1 0%nat = B' j i 0%nat m1 }.
(** What the matter profile with feedback needs. *)
Definition stars_extended (c : kconfig) (b : dblock) (S : spectra) (nb : nat) : Prop :=
  exists m z t, b (kc_hod c) "mass_extended"%string = Some (BArr m) /\ b (kc_hod c) "z_extended"%string = Some (BArr z) /\ b (kc_hod c) "f_star_extended"%string = Some (BTab t) /\
    forall j i, (j < s_nz S)%nat -> (i < s_nm S)%nat ->
      bilinear (List.length m) (fun a => nth a m 0) (List.length z) (fun e => nth e z 0) (fun a e => nth a (nth e t []) 0) (s_mass S i) (s_zvec S j) = fstar_mm S nb j i.
Definition baryons_agree (c : kconfig) (b : dblock) (S : spectra) (nb : nat) : Prop :=
  match kc_mead c with
  | Some Feedback => reads b "halo_model_parameters" "logT_AGN" (s_logT S)
  | Some FitFeedback => stars_extended c b S nb /\ exists mb, reads b "halo_model_parameters" "m_b" mb /\ s_mb S = pow10 mb
  | _ => True
  end.

(** The names of bin [nb] of [n] in the section of the occupation. *)
Definition bin_tail (n : Z) (nb : nat) (t : string) : Prop := (n = 1%Z /\ t = ""%string) \/ (n <> 1%Z /\ t = ("_" ++ dec (nb + 1))%string).
(** A curve, and a table, of the block at the redshifts of [S]. *)
Definition curve_says (b : dblock) (s nme : string) (f : fill) (zs : list R) (S : spectra) (g : A1) : Prop :=
  exists v, b s nme = Some (BArr v) /\ forall j, (j < s_nz S)%nat -> interp1d f (List.length zs) (fun e => nth e zs 0) (fun e => nth e v 0) (s_zvec S j) = g j.
Definition table_says (b : dblock) (s nme : string) (zs : list R) (S : spectra) (g : A2) : Prop :=
  exists t, b s nme = Some (BTab t) /\ forall j m, (j < s_nz S)%nat -> (m < s_nm S)%nat ->
    interp1d Extrapolate (List.length zs) (fun e => nth e zs 0) (fun e => nth m (nth e t []) 0) (s_zvec S j) = g j m.
(** The occupation of bin [nb], as [S] has it. *)
Definition occupation_agrees (c : kconfig) (b : dblock) (n : Z) (nb : nat) (S : spectra) : Prop :=
  exists t zs, bin_tail n nb t /\ b (kc_hod c) ("z" ++ t)%string = Some (BArr zs) /\
    table_says b (kc_hod c) ("n_cen" ++ t) zs S (sN_c S nb) /\ table_says b (kc_hod c) ("n_sat" ++ t) zs S (sN_s S nb) /\
    curve_says b (kc_hod c) ("number_density_cen" ++ t) Extrapolate zs S (sn_c S nb) /\ curve_says b (kc_hod c) ("number_density_sat" ++ t) Extrapolate zs S (sn_s S nb) /\
    curve_says b (kc_hod c) ("central_fraction" ++ t) (FillValue 0) zs S (sF_c S nb) /\ curve_says b (kc_hod c) ("satellite_fraction" ++ t) (FillValue 0) zs S (sF_s S nb).
(** Its stars, needed by the fit and by the point mass. *)
Definition stars_agree (c : kconfig) (b : dblock) (n : Z) (nb : nat) (S : spectra) : Prop :=
  (kc_mead c = Some FitFeedback \/ kc_pm c = true) ->
  exists t zs mb, bin_tail n nb t /\ b (kc_hod c) ("z" ++ t)%string = Some (BArr zs) /\ table_says b (kc_hod c) ("f_star" ++ t) zs S (fstar S nb) /\
    reads b "halo_model_parameters" "m_b" mb /\ s_mb S = pow10 mb.
(** Its alignment: the scaling with the mean halo mass is present for 'halo_mass' and absent otherwise. *)
Definition scaling_says (b : dblock) (s nme : string) (beta mpivot : option R) (avg : Prop) : Prop :=
  exists v, b s "instance"%string = Some (BStr v) /\
    if String.eqb v "halo_mass" then exists e m, beta = Some e /\ mpivot = Some m /\ reads b s nme e /\ reads b s "M_pivot" m /\ avg else beta = None \/ mpivot = None.
Definition mean_mass_says (c : kconfig) (b : dblock) (n : Z) (nb : nat) (S : spectra) : Prop :=
  exists t zs, bin_tail n nb t /\ b (kc_hod c) ("z" ++ t)%string = Some (BArr zs) /\ curve_says b (kc_hod c) ("average_halo_mass" ++ t) (FillValue 0) zs S (mass_avg S nb).
Definition alignment_agrees (c : kconfig) (b : dblock) (n : Z) (nb : nat) (S : spectra) : Prop :=
  holds_array (b (central_section (kc_pop c)) "alignment_gi"%string) (s_nz S) (s_gi S) /\
  (exists nm nk m k W, (2 <= nm)%nat /\ (2 <= nk)%nat /\
    (forall j, (j < s_nz S)%nat -> holds_array (b "wkm"%string (sat_name "mass_" j (kc_pop c))) nm m /\ holds_array (b "wkm"%string (sat_name "k_h_" j (kc_pop c))) nk k /\
       holds_table (b "wkm"%string (sat_name "w_km_" j (kc_pop c))) nm nk (W j)) /\
    forall j i q, (j < s_nz S)%nat -> (i < s_nk S)%nat -> (q < s_nm S)%nat -> upsampled_hankel nm m nk k (W j) (s_kvec S i) (s_mass S q) = s_wkm S j i q) /\
  scaling_says b (central_section (kc_pop c)) "beta" (s_beta_cen S) (s_mpivot_cen S) (mean_mass_says c b n nb S) /\
  scaling_says b (satellite_section (kc_pop c)) "beta_sat" (s_beta_sat S) (s_mpivot_sat S) (mean_mass_says c b n nb S).
(** The Poisson factor. *)
Definition poisson_agrees (c : kconfig) (b : dblock) (S : spectra) : Prop :=
  match s_poisson S with
  | PConstant v => (kc_poisson c = "scalar"%string /\ reads b "pk_parameters" "poisson" v) \/ (kc_poisson c <> "scalar"%string /\ kc_poisson c <> "power_law"%string /\ v = 1)
  | PPowerLaw v M0 slope => kc_poisson c = "power_law"%string /\ reads b "pk_parameters" "poisson" v /\
      may_read b "pk_parameters" "M_0" M0 /\ may_read b "pk_parameters" "slope" slope
  end.
(** The effective power of the Fortuna mode: the module has not overwritten the non-linear power. *)
Definition effective_agrees (c : kconfig) (b : dblock) (S : spectra) : Prop :=
  s_mode S = PkModel.Fortuna -> ~ matter_section c "matter_power_nl" /\
    (exists pn, pk_nl S = Ok (Some pn) /\ power_says b "matter_power_nl" S pn) /\
    ((b "pk_parameters"%string "linear_fraction_fortuna"%string = None /\ s_t_eff S = 0) \/ reads b "pk_parameters" "linear_fraction_fortuna" (s_t_eff S)).
(** The factor of the response. *)
Definition response_factor (S : spectra) (nb : nat) (g : A2) : Prop :=
  (s_response S = false /\ forall j i, g j i = 1) \/
  (s_response S = true /\ exists pn mm, pk_nl S = Ok (Some pn) /\ power_spectrum_mm_raw S = Ok mm /\ forall j i, g j i = pn j i / pk_tot mm nb j i).

(** A section holds the axes of [S] and the table [f]. *)
Definition holds_result (b : dblock) (s nme : string) (S : spectra) (f : A2) : Prop :=
  holds_array (b s "z"%string) (s_nz S) (s_zvec S) /\ holds_array (b s "k_h"%string) (s_nk S) (s_kvec S) /\ holds_table (b s nme) (s_nz S) (s_nk S) f.
(** A run of the module that asks for what [S] is asked, on a block that agrees with [S]. *)
Definition agreed_run (over : bool) (dw : dblock -> list R -> A2 -> res A2) (nd : arrays) (c : kconfig) (b b' : dblock) (S : spectra) (pl : A2) : Prop :=
  asks_alike c S /\ halos_agree dw nd c b S pl /\ pk_lin S = Ok pl /\ (asks_galaxies c -> hod_apart c) /\ lk_execute over dw nd c b = (b', Ok tt).
(** Bin [nb] of [n], whose sections end in [sfx]. *)
Definition agreed_bin (c : kconfig) (b : dblock) (S : spectra) (n : Z) (nb : nat) (sfx : string) : Prop :=
  b (kc_hod c) "nbins"%string = Some (BInt n) /\ (nb < Z.to_nat n)%nat /\ bin_end c n nb sfx /\ occupation_agrees c b n nb S /\ (kc_response c = true -> baryons_agree c b S nb).
(** The three tables of a spectrum. *)
Definition holds_spectrum (b : dblock) (s : string) (S : spectra) (r : psr) (nb : nat) : Prop :=
  holds_result b s "p_k_1h" S (pk_1h r nb) /\ holds_result b s "p_k_2h" S (pk_2h r nb) /\ holds_result b s "p_k" S (pk_tot r nb).
(** The same, with [d] added to the two-halo table before the response [g]. *)
Definition holds_shifted (b : dblock) (s : string) (S : spectra) (r : psr) (nb : nat) (d g : A2) : Prop :=
  holds_result b s "p_k_1h" S (pk_1h r nb) /\ holds_result b s "p_k_2h" S (fun j i => pk_2h r nb j i + d j i * g j i) /\ holds_result b s "p_k" S (pk_tot r nb).
