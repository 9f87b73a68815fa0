(** Vocabulary of the power spectrum properties.  The [with_...] functions describe
    the same request with one option changed (generated field by field). *)
From Coquelicot Require Import Coquelicot.
From Verif Require Import Base Spec Quad HodModel HodSpec PkModel.
Open Scope R_scope.

(** The same request with response on or off. *)
Definition with_response (v : bool) (S : spectra) : spectra :=
  {| s_mode := s_mode S; s_ingr := s_ingr S; s_dewiggle := s_dewiggle S; s_response := v;
     s_pointmass := s_pointmass S; s_nz := s_nz S; s_nk := s_nk S; s_nm := s_nm S; s_zvec := s_zvec S;
     s_kvec := s_kvec S; s_mass := s_mass S; s_dndlnm := s_dndlnm S; s_bias := s_bias S; s_rho := s_rho S;
     s_growth := s_growth S; s_sigma8z := s_sigma8z S; s_neff := s_neff S; s_nfw_cen := s_nfw_cen S;
     s_nfw_sat := s_nfw_sat S; s_nkh := s_nkh S; s_kh := s_kh S; s_power := s_power S;
     s_nlpower := s_nlpower S; s_plin := s_plin S; s_pnl := s_pnl S; s_beta_nl := s_beta_nl S;
     s_emulator := s_emulator S; s_k1 := s_k1 S; s_k2 := s_k2 S; s_k1_ia := s_k1_ia S; s_k2_ia := s_k2_ia S;
     s_poisson := s_poisson S; s_hod := s_hod S; s_hod_set := s_hod_set S; s_hod_set_mm := s_hod_set_mm S;
     s_h := s_h S; s_t_eff := s_t_eff S; s_mb := s_mb S; s_logT := s_logT S; s_ob := s_ob S; s_oc := s_oc S;
     s_om := s_om S; s_ns := s_ns S; s_lnt := s_lnt S; s_gi := s_gi S; s_beta_cen := s_beta_cen S;
     s_mpivot_cen := s_mpivot_cen S; s_beta_sat := s_beta_sat S; s_mpivot_sat := s_mpivot_sat S;
     s_wkm := s_wkm S |}.

(** The same request in another non-linear mode. *)
Definition with_mode (v : nl_mode) (S : spectra) : spectra :=
  {| s_mode := v; s_ingr := s_ingr S; s_dewiggle := s_dewiggle S; s_response := s_response S;
     s_pointmass := s_pointmass S; s_nz := s_nz S; s_nk := s_nk S; s_nm := s_nm S; s_zvec := s_zvec S;
     s_kvec := s_kvec S; s_mass := s_mass S; s_dndlnm := s_dndlnm S; s_bias := s_bias S; s_rho := s_rho S;
     s_growth := s_growth S; s_sigma8z := s_sigma8z S; s_neff := s_neff S; s_nfw_cen := s_nfw_cen S;
     s_nfw_sat := s_nfw_sat S; s_nkh := s_nkh S; s_kh := s_kh S; s_power := s_power S;
     s_nlpower := s_nlpower S; s_plin := s_plin S; s_pnl := s_pnl S; s_beta_nl := s_beta_nl S;
     s_emulator := s_emulator S; s_k1 := s_k1 S; s_k2 := s_k2 S; s_k1_ia := s_k1_ia S; s_k2_ia := s_k2_ia S;
     s_poisson := s_poisson S; s_hod := s_hod S; s_hod_set := s_hod_set S; s_hod_set_mm := s_hod_set_mm S;
     s_h := s_h S; s_t_eff := s_t_eff S; s_mb := s_mb S; s_logT := s_logT S; s_ob := s_ob S; s_oc := s_oc S;
     s_om := s_om S; s_ns := s_ns S; s_lnt := s_lnt S; s_gi := s_gi S; s_beta_cen := s_beta_cen S;
     s_mpivot_cen := s_mpivot_cen S; s_beta_sat := s_beta_sat S; s_mpivot_sat := s_mpivot_sat S;
     s_wkm := s_wkm S |}.

(** The same request with another mixing parameter. *)
Definition with_t_eff (v : R) (S : spectra) : spectra :=
  {| s_mode := s_mode S; s_ingr := s_ingr S; s_dewiggle := s_dewiggle S; s_response := s_response S;
     s_pointmass := s_pointmass S; s_nz := s_nz S; s_nk := s_nk S; s_nm := s_nm S; s_zvec := s_zvec S;
     s_kvec := s_kvec S; s_mass := s_mass S; s_dndlnm := s_dndlnm S; s_bias := s_bias S; s_rho := s_rho S;
     s_growth := s_growth S; s_sigma8z := s_sigma8z S; s_neff := s_neff S; s_nfw_cen := s_nfw_cen S;
     s_nfw_sat := s_nfw_sat S; s_nkh := s_nkh S; s_kh := s_kh S; s_power := s_power S;
     s_nlpower := s_nlpower S; s_plin := s_plin S; s_pnl := s_pnl S; s_beta_nl := s_beta_nl S;
     s_emulator := s_emulator S; s_k1 := s_k1 S; s_k2 := s_k2 S; s_k1_ia := s_k1_ia S; s_k2_ia := s_k2_ia S;
     s_poisson := s_poisson S; s_hod := s_hod S; s_hod_set := s_hod_set S; s_hod_set_mm := s_hod_set_mm S;
     s_h := s_h S; s_t_eff := v; s_mb := s_mb S; s_logT := s_logT S; s_ob := s_ob S; s_oc := s_oc S;
     s_om := s_om S; s_ns := s_ns S; s_lnt := s_lnt S; s_gi := s_gi S; s_beta_cen := s_beta_cen S;
     s_mpivot_cen := s_mpivot_cen S; s_beta_sat := s_beta_sat S; s_mpivot_sat := s_mpivot_sat S;
     s_wkm := s_wkm S |}.

(** The same request with another Poisson model. *)
Definition with_poisson (v : poisson_model) (S : spectra) : spectra :=
  {| s_mode := s_mode S; s_ingr := s_ingr S; s_dewiggle := s_dewiggle S; s_response := s_response S;
     s_pointmass := s_pointmass S; s_nz := s_nz S; s_nk := s_nk S; s_nm := s_nm S; s_zvec := s_zvec S;
     s_kvec := s_kvec S; s_mass := s_mass S; s_dndlnm := s_dndlnm S; s_bias := s_bias S; s_rho := s_rho S;
     s_growth := s_growth S; s_sigma8z := s_sigma8z S; s_neff := s_neff S; s_nfw_cen := s_nfw_cen S;
     s_nfw_sat := s_nfw_sat S; s_nkh := s_nkh S; s_kh := s_kh S; s_power := s_power S;
     s_nlpower := s_nlpower S; s_plin := s_plin S; s_pnl := s_pnl S; s_beta_nl := s_beta_nl S;
     s_emulator := s_emulator S; s_k1 := s_k1 S; s_k2 := s_k2 S; s_k1_ia := s_k1_ia S; s_k2_ia := s_k2_ia S;
     s_poisson := v; s_hod := s_hod S; s_hod_set := s_hod_set S; s_hod_set_mm := s_hod_set_mm S; s_h := s_h S;
     s_t_eff := s_t_eff S; s_mb := s_mb S; s_logT := s_logT S; s_ob := s_ob S; s_oc := s_oc S; s_om := s_om S;
     s_ns := s_ns S; s_lnt := s_lnt S; s_gi := s_gi S; s_beta_cen := s_beta_cen S;
     s_mpivot_cen := s_mpivot_cen S; s_beta_sat := s_beta_sat S; s_mpivot_sat := s_mpivot_sat S;
     s_wkm := s_wkm S |}.

(** The same request with another non-linear spectrum. *)
Definition with_pnl (v : option arr2) (S : spectra) : spectra :=
  {| s_mode := s_mode S; s_ingr := s_ingr S; s_dewiggle := s_dewiggle S; s_response := s_response S;
     s_pointmass := s_pointmass S; s_nz := s_nz S; s_nk := s_nk S; s_nm := s_nm S; s_zvec := s_zvec S;
     s_kvec := s_kvec S; s_mass := s_mass S; s_dndlnm := s_dndlnm S; s_bias := s_bias S; s_rho := s_rho S;
     s_growth := s_growth S; s_sigma8z := s_sigma8z S; s_neff := s_neff S; s_nfw_cen := s_nfw_cen S;
     s_nfw_sat := s_nfw_sat S; s_nkh := s_nkh S; s_kh := s_kh S; s_power := s_power S;
     s_nlpower := s_nlpower S; s_plin := s_plin S; s_pnl := v; s_beta_nl := s_beta_nl S;
     s_emulator := s_emulator S; s_k1 := s_k1 S; s_k2 := s_k2 S; s_k1_ia := s_k1_ia S; s_k2_ia := s_k2_ia S;
     s_poisson := s_poisson S; s_hod := s_hod S; s_hod_set := s_hod_set S; s_hod_set_mm := s_hod_set_mm S;
     s_h := s_h S; s_t_eff := s_t_eff S; s_mb := s_mb S; s_logT := s_logT S; s_ob := s_ob S; s_oc := s_oc S;
     s_om := s_om S; s_ns := s_ns S; s_lnt := s_lnt S; s_gi := s_gi S; s_beta_cen := s_beta_cen S;
     s_mpivot_cen := s_mpivot_cen S; s_beta_sat := s_beta_sat S; s_mpivot_sat := s_mpivot_sat S;
     s_wkm := s_wkm S |}.

(** The same request with another linear spectrum. *)
Definition with_plin (v : option arr2) (S : spectra) : spectra :=
  {| s_mode := s_mode S; s_ingr := s_ingr S; s_dewiggle := s_dewiggle S; s_response := s_response S;
     s_pointmass := s_pointmass S; s_nz := s_nz S; s_nk := s_nk S; s_nm := s_nm S; s_zvec := s_zvec S;
     s_kvec := s_kvec S; s_mass := s_mass S; s_dndlnm := s_dndlnm S; s_bias := s_bias S; s_rho := s_rho S;
     s_growth := s_growth S; s_sigma8z := s_sigma8z S; s_neff := s_neff S; s_nfw_cen := s_nfw_cen S;
     s_nfw_sat := s_nfw_sat S; s_nkh := s_nkh S; s_kh := s_kh S; s_power := s_power S;
     s_nlpower := s_nlpower S; s_plin := v; s_pnl := s_pnl S; s_beta_nl := s_beta_nl S;
     s_emulator := s_emulator S; s_k1 := s_k1 S; s_k2 := s_k2 S; s_k1_ia := s_k1_ia S; s_k2_ia := s_k2_ia S;
     s_poisson := s_poisson S; s_hod := s_hod S; s_hod_set := s_hod_set S; s_hod_set_mm := s_hod_set_mm S;
     s_h := s_h S; s_t_eff := s_t_eff S; s_mb := s_mb S; s_logT := s_logT S; s_ob := s_ob S; s_oc := s_oc S;
     s_om := s_om S; s_ns := s_ns S; s_lnt := s_lnt S; s_gi := s_gi S; s_beta_cen := s_beta_cen S;
     s_mpivot_cen := s_mpivot_cen S; s_beta_sat := s_beta_sat S; s_mpivot_sat := s_mpivot_sat S;
     s_wkm := s_wkm S |}.

(** The same request with dewiggling on or off. *)
Definition with_dewiggle (v : bool) (S : spectra) : spectra :=
  {| s_mode := s_mode S; s_ingr := s_ingr S; s_dewiggle := v; s_response := s_response S;
     s_pointmass := s_pointmass S; s_nz := s_nz S; s_nk := s_nk S; s_nm := s_nm S; s_zvec := s_zvec S;
     s_kvec := s_kvec S; s_mass := s_mass S; s_dndlnm := s_dndlnm S; s_bias := s_bias S; s_rho := s_rho S;
     s_growth := s_growth S; s_sigma8z := s_sigma8z S; s_neff := s_neff S; s_nfw_cen := s_nfw_cen S;
     s_nfw_sat := s_nfw_sat S; s_nkh := s_nkh S; s_kh := s_kh S; s_power := s_power S;
     s_nlpower := s_nlpower S; s_plin := s_plin S; s_pnl := s_pnl S; s_beta_nl := s_beta_nl S;
     s_emulator := s_emulator S; s_k1 := s_k1 S; s_k2 := s_k2 S; s_k1_ia := s_k1_ia S; s_k2_ia := s_k2_ia S;
     s_poisson := s_poisson S; s_hod := s_hod S; s_hod_set := s_hod_set S; s_hod_set_mm := s_hod_set_mm S;
     s_h := s_h S; s_t_eff := s_t_eff S; s_mb := s_mb S; s_logT := s_logT S; s_ob := s_ob S; s_oc := s_oc S;
     s_om := s_om S; s_ns := s_ns S; s_lnt := s_lnt S; s_gi := s_gi S; s_beta_cen := s_beta_cen S;
     s_mpivot_cen := s_mpivot_cen S; s_beta_sat := s_beta_sat S; s_mpivot_sat := s_mpivot_sat S;
     s_wkm := s_wkm S |}.

(** The same request with another beta_nl table. *)
Definition with_beta_nl (v : option A4) (S : spectra) : spectra :=
  {| s_mode := s_mode S; s_ingr := s_ingr S; s_dewiggle := s_dewiggle S; s_response := s_response S;
     s_pointmass := s_pointmass S; s_nz := s_nz S; s_nk := s_nk S; s_nm := s_nm S; s_zvec := s_zvec S;
     s_kvec := s_kvec S; s_mass := s_mass S; s_dndlnm := s_dndlnm S; s_bias := s_bias S; s_rho := s_rho S;
     s_growth := s_growth S; s_sigma8z := s_sigma8z S; s_neff := s_neff S; s_nfw_cen := s_nfw_cen S;
     s_nfw_sat := s_nfw_sat S; s_nkh := s_nkh S; s_kh := s_kh S; s_power := s_power S;
     s_nlpower := s_nlpower S; s_plin := s_plin S; s_pnl := s_pnl S; s_beta_nl := v;
     s_emulator := s_emulator S; s_k1 := s_k1 S; s_k2 := s_k2 S; s_k1_ia := s_k1_ia S; s_k2_ia := s_k2_ia S;
     s_poisson := s_poisson S; s_hod := s_hod S; s_hod_set := s_hod_set S; s_hod_set_mm := s_hod_set_mm S;
     s_h := s_h S; s_t_eff := s_t_eff S; s_mb := s_mb S; s_logT := s_logT S; s_ob := s_ob S; s_oc := s_oc S;
     s_om := s_om S; s_ns := s_ns S; s_lnt := s_lnt S; s_gi := s_gi S; s_beta_cen := s_beta_cen S;
     s_mpivot_cen := s_mpivot_cen S; s_beta_sat := s_beta_sat S; s_mpivot_sat := s_mpivot_sat S;
     s_wkm := s_wkm S |}.

(** The same request with other hmcode ingredients. *)
Definition with_ingr (v : hm_ingr) (S : spectra) : spectra :=
  {| s_mode := s_mode S; s_ingr := v; s_dewiggle := s_dewiggle S; s_response := s_response S;
     s_pointmass := s_pointmass S; s_nz := s_nz S; s_nk := s_nk S; s_nm := s_nm S; s_zvec := s_zvec S;
     s_kvec := s_kvec S; s_mass := s_mass S; s_dndlnm := s_dndlnm S; s_bias := s_bias S; s_rho := s_rho S;
     s_growth := s_growth S; s_sigma8z := s_sigma8z S; s_neff := s_neff S; s_nfw_cen := s_nfw_cen S;
     s_nfw_sat := s_nfw_sat S; s_nkh := s_nkh S; s_kh := s_kh S; s_power := s_power S;
     s_nlpower := s_nlpower S; s_plin := s_plin S; s_pnl := s_pnl S; s_beta_nl := s_beta_nl S;
     s_emulator := s_emulator S; s_k1 := s_k1 S; s_k2 := s_k2 S; s_k1_ia := s_k1_ia S; s_k2_ia := s_k2_ia S;
     s_poisson := s_poisson S; s_hod := s_hod S; s_hod_set := s_hod_set S; s_hod_set_mm := s_hod_set_mm S;
     s_h := s_h S; s_t_eff := s_t_eff S; s_mb := s_mb S; s_logT := s_logT S; s_ob := s_ob S; s_oc := s_oc S;
     s_om := s_om S; s_ns := s_ns S; s_lnt := s_lnt S; s_gi := s_gi S; s_beta_cen := s_beta_cen S;
     s_mpivot_cen := s_mpivot_cen S; s_beta_sat := s_beta_sat S; s_mpivot_sat := s_mpivot_sat S;
     s_wkm := s_wkm S |}.

(** Central and satellite alignment amplitudes rescaled by a common factor. *)
Definition with_amplitude (a : R) (S : spectra) : spectra :=
  {| s_mode := s_mode S; s_ingr := s_ingr S; s_dewiggle := s_dewiggle S; s_response := s_response S;
     s_pointmass := s_pointmass S; s_nz := s_nz S; s_nk := s_nk S; s_nm := s_nm S; s_zvec := s_zvec S;
     s_kvec := s_kvec S; s_mass := s_mass S; s_dndlnm := s_dndlnm S; s_bias := s_bias S; s_rho := s_rho S;
     s_growth := s_growth S; s_sigma8z := s_sigma8z S; s_neff := s_neff S; s_nfw_cen := s_nfw_cen S;
     s_nfw_sat := s_nfw_sat S; s_nkh := s_nkh S; s_kh := s_kh S; s_power := s_power S;
     s_nlpower := s_nlpower S; s_plin := s_plin S; s_pnl := s_pnl S; s_beta_nl := s_beta_nl S;
     s_emulator := s_emulator S; s_k1 := s_k1 S; s_k2 := s_k2 S; s_k1_ia := s_k1_ia S; s_k2_ia := s_k2_ia S;
     s_poisson := s_poisson S; s_hod := s_hod S; s_hod_set := s_hod_set S; s_hod_set_mm := s_hod_set_mm S;
     s_h := s_h S; s_t_eff := s_t_eff S; s_mb := s_mb S; s_logT := s_logT S; s_ob := s_ob S; s_oc := s_oc S;
     s_om := s_om S; s_ns := s_ns S; s_lnt := s_lnt S; s_gi := fun z => a * s_gi S z;
     s_beta_cen := s_beta_cen S; s_mpivot_cen := s_mpivot_cen S; s_beta_sat := s_beta_sat S;
     s_mpivot_sat := s_mpivot_sat S; s_wkm := fun z k m => a * s_wkm S z k m |}.

(** The same request with another satellite alignment profile. *)
Definition with_wkm (w : A3) (S : spectra) : spectra :=
  {| s_mode := s_mode S; s_ingr := s_ingr S; s_dewiggle := s_dewiggle S; s_response := s_response S;
     s_pointmass := s_pointmass S; s_nz := s_nz S; s_nk := s_nk S; s_nm := s_nm S; s_zvec := s_zvec S;
     s_kvec := s_kvec S; s_mass := s_mass S; s_dndlnm := s_dndlnm S; s_bias := s_bias S; s_rho := s_rho S;
     s_growth := s_growth S; s_sigma8z := s_sigma8z S; s_neff := s_neff S; s_nfw_cen := s_nfw_cen S;
     s_nfw_sat := s_nfw_sat S; s_nkh := s_nkh S; s_kh := s_kh S; s_power := s_power S;
     s_nlpower := s_nlpower S; s_plin := s_plin S; s_pnl := s_pnl S; s_beta_nl := s_beta_nl S;
     s_emulator := s_emulator S; s_k1 := s_k1 S; s_k2 := s_k2 S; s_k1_ia := s_k1_ia S; s_k2_ia := s_k2_ia S;
     s_poisson := s_poisson S; s_hod := s_hod S; s_hod_set := s_hod_set S; s_hod_set_mm := s_hod_set_mm S;
     s_h := s_h S; s_t_eff := s_t_eff S; s_mb := s_mb S; s_logT := s_logT S; s_ob := s_ob S; s_oc := s_oc S;
     s_om := s_om S; s_ns := s_ns S; s_lnt := s_lnt S; s_gi := s_gi S; s_beta_cen := s_beta_cen S;
     s_mpivot_cen := s_mpivot_cen S; s_beta_sat := s_beta_sat S; s_mpivot_sat := s_mpivot_sat S; s_wkm := w |}.

(** The same request with another one-halo truncation wavenumber. *)
Definition with_k1 (v : option R) (S : spectra) : spectra :=
  {| s_mode := s_mode S; s_ingr := s_ingr S; s_dewiggle := s_dewiggle S; s_response := s_response S;
     s_pointmass := s_pointmass S; s_nz := s_nz S; s_nk := s_nk S; s_nm := s_nm S; s_zvec := s_zvec S;
     s_kvec := s_kvec S; s_mass := s_mass S; s_dndlnm := s_dndlnm S; s_bias := s_bias S; s_rho := s_rho S;
     s_growth := s_growth S; s_sigma8z := s_sigma8z S; s_neff := s_neff S; s_nfw_cen := s_nfw_cen S;
     s_nfw_sat := s_nfw_sat S; s_nkh := s_nkh S; s_kh := s_kh S; s_power := s_power S;
     s_nlpower := s_nlpower S; s_plin := s_plin S; s_pnl := s_pnl S; s_beta_nl := s_beta_nl S;
     s_emulator := s_emulator S; s_k1 := v; s_k2 := s_k2 S; s_k1_ia := s_k1_ia S; s_k2_ia := s_k2_ia S;
     s_poisson := s_poisson S; s_hod := s_hod S; s_hod_set := s_hod_set S; s_hod_set_mm := s_hod_set_mm S;
     s_h := s_h S; s_t_eff := s_t_eff S; s_mb := s_mb S; s_logT := s_logT S; s_ob := s_ob S; s_oc := s_oc S;
     s_om := s_om S; s_ns := s_ns S; s_lnt := s_lnt S; s_gi := s_gi S; s_beta_cen := s_beta_cen S;
     s_mpivot_cen := s_mpivot_cen S; s_beta_sat := s_beta_sat S; s_mpivot_sat := s_mpivot_sat S;
     s_wkm := s_wkm S |}.

(** The same request with another two-halo truncation wavenumber. *)
Definition with_k2 (v : option R) (S : spectra) : spectra :=
  {| s_mode := s_mode S; s_ingr := s_ingr S; s_dewiggle := s_dewiggle S; s_response := s_response S;
     s_pointmass := s_pointmass S; s_nz := s_nz S; s_nk := s_nk S; s_nm := s_nm S; s_zvec := s_zvec S;
     s_kvec := s_kvec S; s_mass := s_mass S; s_dndlnm := s_dndlnm S; s_bias := s_bias S; s_rho := s_rho S;
     s_growth := s_growth S; s_sigma8z := s_sigma8z S; s_neff := s_neff S; s_nfw_cen := s_nfw_cen S;
     s_nfw_sat := s_nfw_sat S; s_nkh := s_nkh S; s_kh := s_kh S; s_power := s_power S;
     s_nlpower := s_nlpower S; s_plin := s_plin S; s_pnl := s_pnl S; s_beta_nl := s_beta_nl S;
     s_emulator := s_emulator S; s_k1 := s_k1 S; s_k2 := v; s_k1_ia := s_k1_ia S; s_k2_ia := s_k2_ia S;
     s_poisson := s_poisson S; s_hod := s_hod S; s_hod_set := s_hod_set S; s_hod_set_mm := s_hod_set_mm S;
     s_h := s_h S; s_t_eff := s_t_eff S; s_mb := s_mb S; s_logT := s_logT S; s_ob := s_ob S; s_oc := s_oc S;
     s_om := s_om S; s_ns := s_ns S; s_lnt := s_lnt S; s_gi := s_gi S; s_beta_cen := s_beta_cen S;
     s_mpivot_cen := s_mpivot_cen S; s_beta_sat := s_beta_sat S; s_mpivot_sat := s_mpivot_sat S;
     s_wkm := s_wkm S |}.

(** The same request with another one-halo alignment truncation wavenumber. *)
Definition with_k1_ia (v : option R) (S : spectra) : spectra :=
  {| s_mode := s_mode S; s_ingr := s_ingr S; s_dewiggle := s_dewiggle S; s_response := s_response S;
     s_pointmass := s_pointmass S; s_nz := s_nz S; s_nk := s_nk S; s_nm := s_nm S; s_zvec := s_zvec S;
     s_kvec := s_kvec S; s_mass := s_mass S; s_dndlnm := s_dndlnm S; s_bias := s_bias S; s_rho := s_rho S;
     s_growth := s_growth S; s_sigma8z := s_sigma8z S; s_neff := s_neff S; s_nfw_cen := s_nfw_cen S;
     s_nfw_sat := s_nfw_sat S; s_nkh := s_nkh S; s_kh := s_kh S; s_power := s_power S;
     s_nlpower := s_nlpower S; s_plin := s_plin S; s_pnl := s_pnl S; s_beta_nl := s_beta_nl S;
     s_emulator := s_emulator S; s_k1 := s_k1 S; s_k2 := s_k2 S; s_k1_ia := v; s_k2_ia := s_k2_ia S;
     s_poisson := s_poisson S; s_hod := s_hod S; s_hod_set := s_hod_set S; s_hod_set_mm := s_hod_set_mm S;
     s_h := s_h S; s_t_eff := s_t_eff S; s_mb := s_mb S; s_logT := s_logT S; s_ob := s_ob S; s_oc := s_oc S;
     s_om := s_om S; s_ns := s_ns S; s_lnt := s_lnt S; s_gi := s_gi S; s_beta_cen := s_beta_cen S;
     s_mpivot_cen := s_mpivot_cen S; s_beta_sat := s_beta_sat S; s_mpivot_sat := s_mpivot_sat S;
     s_wkm := s_wkm S |}.

(** The same request with another two-halo alignment truncation wavenumber. *)
Definition with_k2_ia (v : option R) (S : spectra) : spectra :=
  {| s_mode := s_mode S; s_ingr := s_ingr S; s_dewiggle := s_dewiggle S; s_response := s_response S;
     s_pointmass := s_pointmass S; s_nz := s_nz S; s_nk := s_nk S; s_nm := s_nm S; s_zvec := s_zvec S;
     s_kvec := s_kvec S; s_mass := s_mass S; s_dndlnm := s_dndlnm S; s_bias := s_bias S; s_rho := s_rho S;
     s_growth := s_growth S; s_sigma8z := s_sigma8z S; s_neff := s_neff S; s_nfw_cen := s_nfw_cen S;
     s_nfw_sat := s_nfw_sat S; s_nkh := s_nkh S; s_kh := s_kh S; s_power := s_power S;
     s_nlpower := s_nlpower S; s_plin := s_plin S; s_pnl := s_pnl S; s_beta_nl := s_beta_nl S;
     s_emulator := s_emulator S; s_k1 := s_k1 S; s_k2 := s_k2 S; s_k1_ia := s_k1_ia S; s_k2_ia := v;
     s_poisson := s_poisson S; s_hod := s_hod S; s_hod_set := s_hod_set S; s_hod_set_mm := s_hod_set_mm S;
     s_h := s_h S; s_t_eff := s_t_eff S; s_mb := s_mb S; s_logT := s_logT S; s_ob := s_ob S; s_oc := s_oc S;
     s_om := s_om S; s_ns := s_ns S; s_lnt := s_lnt S; s_gi := s_gi S; s_beta_cen := s_beta_cen S;
     s_mpivot_cen := s_mpivot_cen S; s_beta_sat := s_beta_sat S; s_mpivot_sat := s_mpivot_sat S;
     s_wkm := s_wkm S |}.

(** The same request with another central alignment amplitude. *)
Definition with_gi (g : nat -> R) (S : spectra) : spectra :=
  {| s_mode := s_mode S; s_ingr := s_ingr S; s_dewiggle := s_dewiggle S; s_response := s_response S;
     s_pointmass := s_pointmass S; s_nz := s_nz S; s_nk := s_nk S; s_nm := s_nm S; s_zvec := s_zvec S;
     s_kvec := s_kvec S; s_mass := s_mass S; s_dndlnm := s_dndlnm S; s_bias := s_bias S; s_rho := s_rho S;
     s_growth := s_growth S; s_sigma8z := s_sigma8z S; s_neff := s_neff S; s_nfw_cen := s_nfw_cen S;
     s_nfw_sat := s_nfw_sat S; s_nkh := s_nkh S; s_kh := s_kh S; s_power := s_power S;
     s_nlpower := s_nlpower S; s_plin := s_plin S; s_pnl := s_pnl S; s_beta_nl := s_beta_nl S;
     s_emulator := s_emulator S; s_k1 := s_k1 S; s_k2 := s_k2 S; s_k1_ia := s_k1_ia S; s_k2_ia := s_k2_ia S;
     s_poisson := s_poisson S; s_hod := s_hod S; s_hod_set := s_hod_set S; s_hod_set_mm := s_hod_set_mm S;
     s_h := s_h S; s_t_eff := s_t_eff S; s_mb := s_mb S; s_logT := s_logT S; s_ob := s_ob S; s_oc := s_oc S;
     s_om := s_om S; s_ns := s_ns S; s_lnt := s_lnt S; s_gi := g; s_beta_cen := s_beta_cen S;
     s_mpivot_cen := s_mpivot_cen S; s_beta_sat := s_beta_sat S; s_mpivot_sat := s_mpivot_sat S;
     s_wkm := s_wkm S |}.

(** The five galaxy and alignment spectra. *)
Inductive spectrum := GG | GM | MI | II | GI.
Definition power_spectrum (x : spectrum) (S : spectra) : res psr :=
  match x with
  | GG => power_spectrum_gg S
  | GM => power_spectrum_gm S
  | MI => power_spectrum_mi S
  | II => power_spectrum_ii S
  | GI => power_spectrum_gi S
  end.

(** The result consists of one-halo plus two-halo power. *)
Definition adds_up (r : psr) : Prop :=
  forall b z k, pk_tot r b z k = pk_1h r b z k + pk_2h r b z k.

(** Physical sizes are positive: masses, mean densities and growth factors. *)
Definition positive_background (S : spectra) : Prop :=
  (1 <= s_nm S)%nat /\ (forall m, (m < s_nm S)%nat -> 0 < s_mass S m) /\
  (forall z, 0 < s_rho S z) /\ (forall z, 0 < s_growth S z).

(** Galaxies exist at output redshift z of bin b. *)
Definition galaxies_exist (S : spectra) (b z : nat) : Prop :=
  number_density_cen (hctx S) (s_hod S) b z <> 0 /\ number_density_sat (hctx S) (s_hod S) b z <> 0.

(** No halo-mass scaling of the alignment amplitudes. *)
Definition no_mass_scaling (S : spectra) : Prop :=
  (s_beta_cen S = None \/ s_mpivot_cen S = None) /\ (s_beta_sat S = None \/ s_mpivot_sat S = None).

(** Total number density of galaxies. *)
Definition n_gal (S : spectra) (b z : nat) : R := number_density (hctx S) (s_hod S) b z.

(** The arrays of the request at bin b, redshift z (a tabulated HOD redshift, node j) and
    wavenumber k are samples of functions of halo mass: occupations, halo number density
    n = dn/dM, halo bias, matter profile u, satellite profile us, alignment profile w. *)
Record halo_fields := {
  h_Nc : R -> R; h_Ns : R -> R; h_n : R -> R; h_b : R -> R; h_u : R -> R; h_us : R -> R; h_w : R -> R }.
Definition sampled_at (S : spectra) (b j z k : nat) (h : halo_fields) : Prop :=
  sampled (hctx S) (s_hod S) b j z (h_Nc h) (h_Ns h) (h_n h) /\
  forall m, (m < s_nm S)%nat ->
    s_bias S z m = h_b h (s_mass S m) /\ u_dm S z k m = h_u h (s_mass S m) /\
    u_sat S z k m = h_us h (s_mass S m) /\ s_wkm S z k m = h_w h (s_mass S m).

(** Integral over the halo masses of the request. *)
Definition mass_int (S : spectra) (f : R -> R) : R :=
  RInt f (s_mass S 0%nat) (s_mass S (s_nm S - 1)%nat).

(** Every ingredient is non-negative and the mass grid is log-uniform with ratio at most 2. *)
Definition nonneg_ingredients (S : spectra) : Prop :=
  (1 <= s_nm S)%nat /\ (exists r, 1 < r <= 2 /\ log_uniform (s_nm S) r (s_mass S)) /\
  (forall z, 0 < s_rho S z) /\ (forall z, 0 < s_growth S z) /\
  (forall z m, (m < s_nm S)%nat -> 0 <= s_dndlnm S z m) /\
  (forall z m, (m < s_nm S)%nat -> 0 <= s_bias S z m) /\
  (forall z k m, (m < s_nm S)%nat -> 0 <= u_dm S z k m) /\
  (forall z k m, (m < s_nm S)%nat -> 0 <= u_sat S z k m) /\
  (forall z k m, (m < s_nm S)%nat -> 0 <= s_wkm S z k m) /\
  (forall z, 0 <= s_gi S z).

(** The galaxy sample of bin b at redshift z is physical. *)
Definition nonneg_galaxies (S : spectra) (b z : nat) : Prop :=
  0 <= f_c (hctx S) (s_hod S) b z /\ 0 <= f_s (hctx S) (s_hod S) b z /\
  0 <= number_density_cen (hctx S) (s_hod S) b z /\ 0 <= number_density_sat (hctx S) (s_hod S) b z /\
  (forall m, (m < s_nm S)%nat -> 0 <= hod_cen (hctx S) (s_hod S) b z m) /\
  (forall m, (m < s_nm S)%nat -> 0 <= hod_sat (hctx S) (s_hod S) b z m).

(** The one-halo matter profile needs no baryonic feedback. *)
Definition no_feedback (S : spectra) : Prop :=
  s_ingr S = Mead2020 \/ (s_ingr S = NoIngr /\ s_pointmass S = false).

(** Resolved haloes do not over-account for the mean bias-weighted matter density:
    (1/rho) * integral of b dn/dlnM dM is at most one. *)
Definition bias_budget (S : spectra) (z : nat) : Prop :=
  simpson (s_nm S) (fun m => s_bias S z m * s_dndlnm S z m / s_rho S z) (s_mass S) <= 1.

(** Baryon parameters are physical in bin b at redshift z: stars take at most the cosmic
    baryon fraction. *)
Definition physical_baryons (S : spectra) (b z : nat) : Prop :=
  0 < s_om S /\ 0 <= s_oc S /\ s_oc S + s_ob S = s_om S /\ 0 < s_mb S /\
  0 <= fs (s_logT S) (s_zvec S z) <= s_ob S / s_om S /\
  (forall m, (m < s_nm S)%nat -> 0 <= stellar_fraction (hctx S) (s_hod S) b z m <= s_ob S / s_om S).

(** One-field integral of the beta_nl correction by the classical trapezoid rule: resolved
    haloes plus the low-mass compensation carried by the lightest halo. *)
Definition trap_field (S : spectra) (W : A4) (b z k : nat) : R :=
  trapezoid (s_nm S - 1) (fun m => s_bias S z m * s_dndlnm S z m / s_mass S m * W b z k m) (s_mass S)
  + (1 - simpson (s_nm S) (fun m => s_bias S z m * s_dndlnm S z m * (1 / s_rho S z)) (s_mass S))
    * W b z k 0%nat * s_rho S z / s_mass S 0%nat.

(** A user-supplied array fits the redshift and wavenumber grids. *)
Definition fits (S : spectra) (a : arr2) : Prop := a_rows a = s_nz S /\ a_cols a = s_nk S.

(** Every number of a result is the given multiple of the corresponding number of another. *)
Definition multiple_of (c : R) (r r' : psr) : Prop :=
  pk_bias r' = pk_bias r /\ forall b z k,
  pk_1h r' b z k = c * pk_1h r b z k /\ pk_2h r' b z k = c * pk_2h r b z k /\ pk_tot r' b z k = c * pk_tot r b z k.

(** Galaxy and matter spectra as opposed to alignment spectra. *)
Definition is_alignment (x : spectrum) : bool := match x with GG | GM => false | _ => true end.

(** A damping function of wavenumber. *)
Definition damping (D : R -> R) : Prop := forall k, 0 <= k -> 0 <= D k <= 1.
Definition rising (D : R -> R) : Prop := D 0 = 0 /\ forall k k', 0 <= k -> k <= k' -> D k <= D k'.
Definition falling (D : R -> R) : Prop := D 0 = 1 /\ forall k k', 0 <= k -> k <= k' -> D k' <= D k.

(** The one-halo (two-halo) part of [r] is [D k] times that of [r0]; the other part is equal. *)
Definition damps_1h (S : spectra) (D : R -> R) (r0 r : psr) : Prop := forall b z k,
  pk_1h r b z k = D (s_kvec S k) * pk_1h r0 b z k /\ pk_2h r b z k = pk_2h r0 b z k.
Definition damps_2h (S : spectra) (D : R -> R) (r0 r : psr) : Prop := forall b z k,
  pk_2h r b z k = D (s_kvec S k) * pk_2h r0 b z k /\ pk_1h r b z k = pk_1h r0 b z k.

(** Two results hold the same numbers. *)
Definition same_power (r r' : psr) : Prop := forall b z k,
  pk_1h r b z k = pk_1h r' b z k /\ pk_2h r b z k = pk_2h r' b z k /\ pk_tot r b z k = pk_tot r' b z k.

(** Only centrals, only satellites are aligned. *)
Definition only_centrals (S : spectra) : spectra := with_wkm (fun _ _ _ => 0) S.
Definition only_satellites (S : spectra) : spectra := with_gi (fun _ => 0) S.

(** Large scales at redshift z and wavenumber k: the matter profile of every halo is 1. *)
Definition large_scale (S : spectra) (z k : nat) : Prop := forall m, (m < s_nm S)%nat -> u_dm S z k m = 1.

(** The non-linear alignment (NLA) amplitude of the centrals of a sample: f_c C1 gi rho / D,
    times (mean halo mass / pivot)^beta when a halo-mass dependence is requested. *)
Definition nla (S : spectra) (b z : nat) : R :=
  f_c (hctx S) (s_hod S) b z * (5 / 100000000000000 * s_gi S z) * s_rho S z / s_growth S z
  * match s_beta_cen S, s_mpivot_cen S with
    | Some beta, Some mp => fpow (mass_avg S b z / mp) beta
    | _, _ => 1 end.

(** bnl mode with a vanishing table; default mode without two-halo truncation. *)
Definition zero_beta : A4 := fun _ _ _ _ => 0.
Definition bnl_zero (S : spectra) : spectra := with_mode Bnl (with_beta_nl (Some zero_beta) S).
Definition untruncated_2h (S : spectra) : spectra := with_mode NoNl (with_k2 None (with_k2_ia None S)).

(** Modes in which the halo model uses the linear spectrum and no correction for matter. *)
Definition plain_mode (m : nl_mode) : Prop := m = NoNl \/ m = Fortuna.
