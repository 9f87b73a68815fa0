(** Vocabulary of the relational properties: how the spectra of two requests that differ in
    one respect compare.  The record transformations are written out field by field. *)
From Verif Require Import Base Spec Quad Interp HodModel HodSpec Dewiggle PkModel PkSpec.
Open Scope R_scope.

(** A rescaled array. *)
Definition times2 (c : R) (a : arr2) : arr2 :=
  {| a_rows := a_rows a; a_cols := a_cols a; a_val := fun z k => c * a_val a z k |}.

(** The same physical request with every length expressed in a unit [1/L] times as large:
    lengths are multiplied by L, volumes by L^3, wavenumbers divided by L, number and mass
    densities divided by L^3.  Profiles, masses, bias, growth and beta_nl have no length
    dimension.  The alignment amplitude enters as an inverse density. *)
Definition in_units (L : R) (S : spectra) : spectra :=
  {| s_mode := s_mode S; s_ingr := s_ingr S; s_dewiggle := s_dewiggle S; s_response := s_response S;
     s_pointmass := s_pointmass S; s_nz := s_nz S; s_nk := s_nk S; s_nm := s_nm S; s_zvec := s_zvec S;
     s_kvec := fun k => / L * s_kvec S k; s_mass := s_mass S;
     s_dndlnm := fun z m => / L ^ 3 * s_dndlnm S z m; s_bias := s_bias S;
     s_rho := fun z => / L ^ 3 * s_rho S z; s_growth := s_growth S; s_sigma8z := s_sigma8z S;
     s_neff := s_neff S; s_nfw_cen := s_nfw_cen S; s_nfw_sat := s_nfw_sat S; s_nkh := s_nkh S;
     s_kh := fun k => / L * s_kh S k; s_power := fun z k => L ^ 3 * s_power S z k;
     s_nlpower := fun z k => L ^ 3 * s_nlpower S z k; s_plin := option_map (times2 (L ^ 3)) (s_plin S);
     s_pnl := option_map (times2 (L ^ 3)) (s_pnl S); s_beta_nl := s_beta_nl S; s_emulator := s_emulator S;
     s_k1 := option_map (Rmult (/ L)) (s_k1 S); s_k2 := s_k2 S;
     s_k1_ia := option_map (Rmult (/ L)) (s_k1_ia S); s_k2_ia := option_map (Rmult (/ L)) (s_k2_ia S);
     s_poisson := s_poisson S; s_hod := s_hod S; s_hod_set := s_hod_set S; s_hod_set_mm := s_hod_set_mm S;
     s_h := s_h S; s_t_eff := s_t_eff S; s_mb := s_mb S; s_logT := s_logT S; s_ob := s_ob S;
     s_oc := s_oc S; s_om := s_om S; s_ns := s_ns S; s_lnt := s_lnt S; s_gi := fun z => L ^ 3 * s_gi S z;
     s_beta_cen := s_beta_cen S; s_mpivot_cen := s_mpivot_cen S; s_beta_sat := s_beta_sat S;
     s_mpivot_sat := s_mpivot_sat S; s_wkm := s_wkm S |}.

(** The same request with every halo made [a] times as abundant. *)
Definition with_abundance (a : R) (S : spectra) : spectra :=
  {| s_mode := s_mode S; s_ingr := s_ingr S; s_dewiggle := s_dewiggle S; s_response := s_response S;
     s_pointmass := s_pointmass S; s_nz := s_nz S; s_nk := s_nk S; s_nm := s_nm S; s_zvec := s_zvec S;
     s_kvec := s_kvec S; s_mass := s_mass S; s_dndlnm := fun z m => a * s_dndlnm S z m; s_bias := s_bias S;
     s_rho := s_rho S; s_growth := s_growth S; s_sigma8z := s_sigma8z S; s_neff := s_neff S;
     s_nfw_cen := s_nfw_cen S; s_nfw_sat := s_nfw_sat S; s_nkh := s_nkh S; s_kh := s_kh S;
     s_power := s_power S; s_nlpower := s_nlpower S; s_plin := s_plin S; s_pnl := s_pnl S;
     s_beta_nl := s_beta_nl S; s_emulator := s_emulator S; s_k1 := s_k1 S; s_k2 := s_k2 S;
     s_k1_ia := s_k1_ia S; s_k2_ia := s_k2_ia S; s_poisson := s_poisson S; s_hod := s_hod S;
     s_hod_set := s_hod_set S; s_hod_set_mm := s_hod_set_mm S; s_h := s_h S; s_t_eff := s_t_eff S;
     s_mb := s_mb S; s_logT := s_logT S; s_ob := s_ob S; s_oc := s_oc S; s_om := s_om S; s_ns := s_ns S;
     s_lnt := s_lnt S; s_gi := s_gi S; s_beta_cen := s_beta_cen S; s_mpivot_cen := s_mpivot_cen S;
     s_beta_sat := s_beta_sat S; s_mpivot_sat := s_mpivot_sat S; s_wkm := s_wkm S |}.

(** Everything a request says about galaxies and their alignments. *)
Record galaxy_part := {
  g_poisson : poisson_model; g_hod : hod_model; g_set : hod_settings; g_set_mm : hod_settings;
  g_nfw_sat : A3; g_k1_ia : option R; g_k2_ia : option R; g_t_eff : R; g_pointmass : bool;
  g_gi : A1; g_beta_cen : option R; g_mpivot_cen : option R; g_beta_sat : option R;
  g_mpivot_sat : option R; g_wkm : A3 }.

(** The same request about other galaxies. *)
Definition with_galaxies (g : galaxy_part) (S : spectra) : spectra :=
  {| s_mode := s_mode S; s_ingr := s_ingr S; s_dewiggle := s_dewiggle S; s_response := s_response S;
     s_pointmass := g_pointmass g; s_nz := s_nz S; s_nk := s_nk S; s_nm := s_nm S; s_zvec := s_zvec S;
     s_kvec := s_kvec S; s_mass := s_mass S; s_dndlnm := s_dndlnm S; s_bias := s_bias S; s_rho := s_rho S;
     s_growth := s_growth S; s_sigma8z := s_sigma8z S; s_neff := s_neff S; s_nfw_cen := s_nfw_cen S;
     s_nfw_sat := g_nfw_sat g; s_nkh := s_nkh S; s_kh := s_kh S; s_power := s_power S;
     s_nlpower := s_nlpower S; s_plin := s_plin S; s_pnl := s_pnl S; s_beta_nl := s_beta_nl S;
     s_emulator := s_emulator S; s_k1 := s_k1 S; s_k2 := s_k2 S; s_k1_ia := g_k1_ia g;
     s_k2_ia := g_k2_ia g; s_poisson := g_poisson g; s_hod := g_hod g; s_hod_set := g_set g;
     s_hod_set_mm := g_set_mm g; s_h := s_h S; s_t_eff := g_t_eff g; s_mb := s_mb S; s_logT := s_logT S;
     s_ob := s_ob S; s_oc := s_oc S; s_om := s_om S; s_ns := s_ns S; s_lnt := s_lnt S; s_gi := g_gi g;
     s_beta_cen := g_beta_cen g; s_mpivot_cen := g_mpivot_cen g; s_beta_sat := g_beta_sat g;
     s_mpivot_sat := g_mpivot_sat g; s_wkm := g_wkm g |}.

(** The same galaxies, aligned differently. *)
Definition with_alignment (g : galaxy_part) (S : spectra) : spectra :=
  {| s_mode := s_mode S; s_ingr := s_ingr S; s_dewiggle := s_dewiggle S; s_response := s_response S;
     s_pointmass := s_pointmass S; s_nz := s_nz S; s_nk := s_nk S; s_nm := s_nm S; s_zvec := s_zvec S;
     s_kvec := s_kvec S; s_mass := s_mass S; s_dndlnm := s_dndlnm S; s_bias := s_bias S; s_rho := s_rho S;
     s_growth := s_growth S; s_sigma8z := s_sigma8z S; s_neff := s_neff S; s_nfw_cen := s_nfw_cen S;
     s_nfw_sat := s_nfw_sat S; s_nkh := s_nkh S; s_kh := s_kh S; s_power := s_power S;
     s_nlpower := s_nlpower S; s_plin := s_plin S; s_pnl := s_pnl S; s_beta_nl := s_beta_nl S;
     s_emulator := s_emulator S; s_k1 := s_k1 S; s_k2 := s_k2 S; s_k1_ia := g_k1_ia g;
     s_k2_ia := g_k2_ia g; s_poisson := s_poisson S; s_hod := s_hod S; s_hod_set := s_hod_set S;
     s_hod_set_mm := s_hod_set_mm S; s_h := s_h S; s_t_eff := g_t_eff g; s_mb := s_mb S;
     s_logT := s_logT S; s_ob := s_ob S; s_oc := s_oc S; s_om := s_om S; s_ns := s_ns S; s_lnt := s_lnt S;
     s_gi := g_gi g; s_beta_cen := g_beta_cen g; s_mpivot_cen := g_mpivot_cen g;
     s_beta_sat := g_beta_sat g; s_mpivot_sat := g_mpivot_sat g; s_wkm := g_wkm g |}.

(** Columns (wavenumbers), rows (redshifts) of a supplied array, selected. *)
Definition cols2 (n : nat) (s : nat -> nat) (a : arr2) : arr2 :=
  {| a_rows := a_rows a; a_cols := n; a_val := fun z k => a_val a z (s k) |}.
Definition rows2 (n : nat) (s : nat -> nat) (a : arr2) : arr2 :=
  {| a_rows := n; a_cols := a_cols a; a_val := fun z k => a_val a (s z) k |}.
Definition res_map {A B : Type} (f : A -> B) (r : res A) : res B :=
  match r with Ok a => Ok (f a) | Err e => Err e end.

(** The same request on n other wavenumbers, the i-th being the (s i)-th of the original
    ones; every input tabulated in wavenumber is tabulated on the new ones. *)
Definition on_wavenumbers (n : nat) (s : nat -> nat) (S : spectra) : spectra :=
  {| s_mode := s_mode S; s_ingr := s_ingr S; s_dewiggle := s_dewiggle S; s_response := s_response S;
     s_pointmass := s_pointmass S; s_nz := s_nz S; s_nk := n; s_nm := s_nm S; s_zvec := s_zvec S;
     s_kvec := fun k => s_kvec S (s k); s_mass := s_mass S; s_dndlnm := s_dndlnm S; s_bias := s_bias S;
     s_rho := s_rho S; s_growth := s_growth S; s_sigma8z := s_sigma8z S; s_neff := s_neff S;
     s_nfw_cen := fun z k m => s_nfw_cen S z (s k) m; s_nfw_sat := fun z k m => s_nfw_sat S z (s k) m;
     s_nkh := s_nkh S; s_kh := s_kh S; s_power := s_power S; s_nlpower := s_nlpower S;
     s_plin := option_map (cols2 n s) (s_plin S); s_pnl := option_map (cols2 n s) (s_pnl S);
     s_beta_nl := option_map (fun (B : A4) z k m1 m2 => B z (s k) m1 m2) (s_beta_nl S);
     s_emulator := res_map (fun (B : A4) z k m1 m2 => B z (s k) m1 m2) (s_emulator S); s_k1 := s_k1 S;
     s_k2 := s_k2 S; s_k1_ia := s_k1_ia S; s_k2_ia := s_k2_ia S; s_poisson := s_poisson S;
     s_hod := s_hod S; s_hod_set := s_hod_set S; s_hod_set_mm := s_hod_set_mm S; s_h := s_h S;
     s_t_eff := s_t_eff S; s_mb := s_mb S; s_logT := s_logT S; s_ob := s_ob S; s_oc := s_oc S;
     s_om := s_om S; s_ns := s_ns S; s_lnt := s_lnt S; s_gi := s_gi S; s_beta_cen := s_beta_cen S;
     s_mpivot_cen := s_mpivot_cen S; s_beta_sat := s_beta_sat S; s_mpivot_sat := s_mpivot_sat S;
     s_wkm := fun z k m => s_wkm S z (s k) m |}.

(** The same request on n other redshifts, the i-th being the (s i)-th of the original ones. *)
Definition on_redshifts (n : nat) (s : nat -> nat) (S : spectra) : spectra :=
  {| s_mode := s_mode S; s_ingr := s_ingr S; s_dewiggle := s_dewiggle S; s_response := s_response S;
     s_pointmass := s_pointmass S; s_nz := n; s_nk := s_nk S; s_nm := s_nm S;
     s_zvec := fun z => s_zvec S (s z); s_kvec := s_kvec S; s_mass := s_mass S;
     s_dndlnm := fun z m => s_dndlnm S (s z) m; s_bias := fun z m => s_bias S (s z) m;
     s_rho := fun z => s_rho S (s z); s_growth := fun z => s_growth S (s z);
     s_sigma8z := fun z => s_sigma8z S (s z); s_neff := fun z => s_neff S (s z);
     s_nfw_cen := fun z k m => s_nfw_cen S (s z) k m; s_nfw_sat := fun z k m => s_nfw_sat S (s z) k m;
     s_nkh := s_nkh S; s_kh := s_kh S; s_power := fun z k => s_power S (s z) k;
     s_nlpower := fun z k => s_nlpower S (s z) k; s_plin := option_map (rows2 n s) (s_plin S);
     s_pnl := option_map (rows2 n s) (s_pnl S);
     s_beta_nl := option_map (fun (B : A4) z k m1 m2 => B (s z) k m1 m2) (s_beta_nl S);
     s_emulator := res_map (fun (B : A4) z k m1 m2 => B (s z) k m1 m2) (s_emulator S); s_k1 := s_k1 S;
     s_k2 := s_k2 S; s_k1_ia := s_k1_ia S; s_k2_ia := s_k2_ia S; s_poisson := s_poisson S;
     s_hod := s_hod S; s_hod_set := s_hod_set S; s_hod_set_mm := s_hod_set_mm S; s_h := s_h S;
     s_t_eff := s_t_eff S; s_mb := s_mb S; s_logT := s_logT S; s_ob := s_ob S; s_oc := s_oc S;
     s_om := s_om S; s_ns := s_ns S; s_lnt := s_lnt S; s_gi := fun z => s_gi S (s z);
     s_beta_cen := s_beta_cen S; s_mpivot_cen := s_mpivot_cen S; s_beta_sat := s_beta_sat S;
     s_mpivot_sat := s_mpivot_sat S; s_wkm := fun z k m => s_wkm S (s z) k m |}.

(** The settings of bin b alone. *)
Definition set_bin (b : nat) (s : hod_settings) : hod_settings :=
  match hs_file s with
  | Some _ => s
  | None => {| hs_file := None; hs_obs_min := [nth b (hs_obs_min s) 0]; hs_obs_max := [nth b (hs_obs_max s) 0];
               hs_zmin := [nth b (hs_zmin s) 0]; hs_zmax := [nth b (hs_zmax s) 0];
               hs_nz := hs_nz s; hs_nobs := hs_nobs s; hs_unit := hs_unit s |}
  end.
Definition par_bin (b : nat) (l : list R) : list R := [bin_par l b].
Definition simple_bin (b : nat) (p : simple_par) : simple_par :=
  {| si_log10_Mmin := par_bin b (si_log10_Mmin p); si_log10_Msat := par_bin b (si_log10_Msat p);
     si_alpha := par_bin b (si_alpha p); si_A_cen := si_A_cen p; si_A_sat := si_A_sat p |}.
(** The occupation model with the parameters of bin b alone. *)
Definition model_bin (b : nat) (md : hod_model) : hod_model :=
  match md with
  | Cacciato p => Cacciato p
  | Simple p => Simple (simple_bin b p)
  | Zehavi p => Zehavi (simple_bin b p)
  | Zheng p => Zheng {| zh_log10_Mmin := par_bin b (zh_log10_Mmin p); zh_log10_M0 := par_bin b (zh_log10_M0 p);
                        zh_log10_M1 := par_bin b (zh_log10_M1 p); zh_sigma := par_bin b (zh_sigma p);
                        zh_alpha := par_bin b (zh_alpha p); zh_A_cen := zh_A_cen p; zh_A_sat := zh_A_sat p |}
  | Zhai p => Zhai {| zi_log10_Mmin := par_bin b (zi_log10_Mmin p); zi_log10_Msat := par_bin b (zi_log10_Msat p);
                      zi_log10_Mcut := par_bin b (zi_log10_Mcut p); zi_sigma := par_bin b (zi_sigma p);
                      zi_alpha := par_bin b (zi_alpha p); zi_A_cen := zi_A_cen p; zi_A_sat := zi_A_sat p |}
  end.
(** The matter settings that serve bin b: the only ones there are, or its own. *)
Definition set_mm_bin (b : nat) (s : hod_settings) : hod_settings :=
  if Nat.eqb (zbins s) 1 then s else set_bin b s.

(** The request for bin b alone. *)
Definition only_bin (b : nat) (S : spectra) : spectra :=
  {| s_mode := s_mode S; s_ingr := s_ingr S; s_dewiggle := s_dewiggle S; s_response := s_response S;
     s_pointmass := s_pointmass S; s_nz := s_nz S; s_nk := s_nk S; s_nm := s_nm S; s_zvec := s_zvec S;
     s_kvec := s_kvec S; s_mass := s_mass S; s_dndlnm := s_dndlnm S; s_bias := s_bias S; s_rho := s_rho S;
     s_growth := s_growth S; s_sigma8z := s_sigma8z S; s_neff := s_neff S; s_nfw_cen := s_nfw_cen S;
     s_nfw_sat := s_nfw_sat S; s_nkh := s_nkh S; s_kh := s_kh S; s_power := s_power S;
     s_nlpower := s_nlpower S; s_plin := s_plin S; s_pnl := s_pnl S; s_beta_nl := s_beta_nl S;
     s_emulator := s_emulator S; s_k1 := s_k1 S; s_k2 := s_k2 S; s_k1_ia := s_k1_ia S;
     s_k2_ia := s_k2_ia S; s_poisson := s_poisson S; s_hod := model_bin b (s_hod S);
     s_hod_set := set_bin b (s_hod_set S); s_hod_set_mm := set_mm_bin b (s_hod_set_mm S); s_h := s_h S;
     s_t_eff := s_t_eff S; s_mb := s_mb S; s_logT := s_logT S; s_ob := s_ob S; s_oc := s_oc S;
     s_om := s_om S; s_ns := s_ns S; s_lnt := s_lnt S; s_gi := s_gi S; s_beta_cen := s_beta_cen S;
     s_mpivot_cen := s_mpivot_cen S; s_beta_sat := s_beta_sat S; s_mpivot_sat := s_mpivot_sat S;
     s_wkm := s_wkm S |}.

(** [r'] holds at (b', z', k') the numbers [r] holds at (b, z, k). *)
Definition same_at (r' : psr) (b' z' k' : nat) (r : psr) (b z k : nat) : Prop :=
  pk_1h r' b' z' k' = pk_1h r b z k /\ pk_2h r' b' z' k' = pk_2h r b z k /\ pk_tot r' b' z' k' = pk_tot r b z k /\
  option_map (fun f : A3 => f b' z' k') (pk_bias r') = option_map (fun f : A3 => f b z k) (pk_bias r).

(** No length scale is built into the request: the hmcode recipes, the dewiggling and the
    two-halo truncation carry hard-coded wavenumbers. *)
Definition scale_free (S : spectra) : Prop :=
  s_mode S <> Hmcode /\ s_dewiggle S = false /\ (s_mode S = Bnl \/ s_k2 S = None).

(** The matter spectrum takes its stellar fraction from the galaxies. *)
Definition stars_in_matter (i : hm_ingr) (md : hod_model) : bool :=
  match i, md with Fit, Cacciato _ => true | _, _ => false end.
