(** Vocabulary for the statements about the legacy power-spectrum module. *)
From Coq Require Import ZArith.
From Verif Require Import Base Quad Interp HodModel PkModel PipeModel OptModel ChainModel LkModel.
Open Scope R_scope.

(** The non-linear mode of Spectra (src/onepower/pk.py) that the options of the module ask for; None if Spectra has no such mode:
    two of its modes at once. *)
Definition mode_of (c : kconfig) : option nl_mode :=
  match kc_bnl c, kc_fortuna c, kc_mead c with
  | true, false, _ => Some Bnl
  | false, true, (None | Some FitFeedback) => Some PkModel.Fortuna
  | false, false, (Some Feedback | Some NoFeedback) => Some Hmcode
  | false, false, _ => Some NoNl
  | _, _, _ => None
  end.
Definition ingredients_of (c : kconfig) : hm_ingr :=
  match kc_mead c with Some Feedback => Mead2020Fb | Some NoFeedback => Mead2020 | Some FitFeedback => Fit | None => NoIngr end.
(** Spectra asked for the same. *)
Record asks_alike (c : kconfig) (S : spectra) : Prop := {
  aa_mode : mode_of c = Some (s_mode S); aa_ingr : s_ingr S = ingredients_of c; aa_response : s_response S = kc_response c; aa_pm : s_pointmass S = kc_pm c;
  aa_pm_only : kc_pm c = true -> kc_mead c = None \/ kc_mead c = Some FitFeedback;
  aa_k1 : s_k1 S = kc_k1 c; aa_k2 : s_k2 S = kc_k2 c; aa_k1i : s_k1_ia S = kc_k1_ia c; aa_k2i : s_k2_ia S = kc_k2_ia c }.
(** The module computes from the numbers Spectra computes from; [pl] is the linear power of Spectra. *)
Record halos_alike (x : lk) (S : spectra) (pl : A2) : Prop := {
  ha_nz : x_nz x = s_nz S; ha_nk : x_nk x = s_nk S; ha_nm : x_nm x = s_nm S; ha_some : (1 <= s_nm S)%nat;
  ha_z : forall j, (j < s_nz S)%nat -> x_z x j = s_zvec S j; ha_k : forall i, (i < s_nk S)%nat -> x_k x i = s_kvec S i;
  ha_mass : forall m, (m < s_nm S)%nat -> x_mass x m = s_mass S m;
  ha_dn : forall j m, (j < s_nz S)%nat -> (m < s_nm S)%nat -> x_dn x j m = s_dndlnm S j m;
  ha_b : forall j m, (j < s_nz S)%nat -> (m < s_nm S)%nat -> x_b x j m = s_bias S j m;
  ha_udm : forall j i m, (j < s_nz S)%nat -> (i < s_nk S)%nat -> (m < s_nm S)%nat -> x_udm x j i m = u_dm S j i m;
  ha_usat : forall j i m, (j < s_nz S)%nat -> (i < s_nk S)%nat -> (m < s_nm S)%nat -> x_usat x j i m = u_sat S j i m;
  ha_pl : forall j i, (j < s_nz S)%nat -> (i < s_nk S)%nat -> x_plin x j i = pl j i;
  ha_growth : forall j, (j < s_nz S)%nat -> x_growth x j = s_growth S j;
  ha_rho : forall j, (j < s_nz S)%nat -> s_rho S j = x_rho x;
  ha_oc : x_oc x = s_oc S; ha_om : x_om x = s_om S; ha_ob : x_ob x = s_ob S }.
(** Needed in the modes that use them: the smoothing numbers of HMcode, and beta_nl, whose values at the least mass do not
    depend on the order of the masses. *)
Definition smoothing_alike (x : lk) (S : spectra) : Prop :=
  s_mode S = Hmcode -> forall j, (j < s_nz S)%nat -> x_sigma8 x j = s_sigma8z S j /\ x_neff x j = s_neff S j.
Definition beta_alike (x : lk) (S : spectra) : Prop :=
  s_mode S = Bnl -> exists B, beta_nl S = Ok B /\ forall j i m1 m2, (j < s_nz S)%nat -> (i < s_nk S)%nat -> (m1 < s_nm S)%nat -> (m2 < s_nm S)%nat ->
    x_beta x j m1 m2 i = B j i m1 m2 /\ B j i m1 0%nat = B j i 0%nat m1.
(** A bin of the module is bin [nb] of Spectra. *)
Record bin_alike (h : bin) (S : spectra) (nb : nat) : Prop := {
  ba_Nc : forall j m, (j < s_nz S)%nat -> (m < s_nm S)%nat -> bi_Nc h j m = sN_c S nb j m;
  ba_Ns : forall j m, (j < s_nz S)%nat -> (m < s_nm S)%nat -> bi_Ns h j m = sN_s S nb j m;
  ba_nc : forall j, (j < s_nz S)%nat -> bi_nc h j = sn_c S nb j; ba_ns : forall j, (j < s_nz S)%nat -> bi_ns h j = sn_s S nb j;
  ba_fc : forall j, (j < s_nz S)%nat -> bi_fc h j = sF_c S nb j; ba_fs : forall j, (j < s_nz S)%nat -> bi_fs h j = sF_s S nb j }.
(** Its alignment: the amplitude, the satellite profile and the scaling with the mean mass. *)
Definition scaling_alike (p : option (R * R)) (beta mpivot : option R) (avg : A1) (S : spectra) (nb : nat) : Prop :=
  match p with
  | Some (e, m) => beta = Some e /\ mpivot = Some m /\ forall j, (j < s_nz S)%nat -> avg j = mass_avg S nb j
  | None => beta = None \/ mpivot = None
  end.
Record ia_alike (h : bin) (S : spectra) (nb : nat) : Prop := {
  ia_a_gi : forall j, (j < s_nz S)%nat -> ia_gi (bi_ia h) j = s_gi S j;
  ia_a_wkm : forall j i m, (j < s_nz S)%nat -> (i < s_nk S)%nat -> (m < s_nm S)%nat -> ia_wkm (bi_ia h) j m i = s_wkm S j i m;
  ia_a_cen : scaling_alike (ia_cen (bi_ia h)) (s_beta_cen S) (s_mpivot_cen S) (bi_avg h) S nb;
  ia_a_sat : scaling_alike (ia_sat (bi_ia h)) (s_beta_sat S) (s_mpivot_sat S) (bi_avg h) S nb }.
(** A matter profile of the module is one of Spectra. *)
Definition profile_alike (W : A3) (V : A4) (S : spectra) (nb : nat) : Prop :=
  forall j i m, (j < s_nz S)%nat -> (i < s_nk S)%nat -> (m < s_nm S)%nat -> W j i m = V nb j i m.
(** Agreement of the tables. *)
Definition same_on (S : spectra) (nb : nat) (f : A2) (g : A3) : Prop := forall j i, (j < s_nz S)%nat -> (i < s_nk S)%nat -> f j i = g nb j i.
Definition same_three (S : spectra) (nb : nat) (t : three) (r : psr) : Prop :=
  same_on S nb (l_1h t) (pk_1h r) /\ same_on S nb (l_2h t) (pk_2h r) /\ same_on S nb (l_tot t) (pk_tot r).

(** ** What a run writes *)
Definition lk_names : list string := ["z"; "k_h"; "p_k_1h"; "p_k_2h"; "p_k"; "bg_linear"; "bgm_linear"]%string.
(** The sections of a bin, without its suffix. *)
Definition requested (c : kconfig) : list string :=
  ((if kc_gg c then ["galaxy_linear_bias"; "galaxy_power"]%string else []) ++ (if kc_gm c then ["galaxy_matter_linear_bias"; "matter_galaxy_power"]%string else []) ++
   (if kc_II c then ["intrinsic_power"]%string else []) ++ (if kc_gI c then ["galaxy_intrinsic_power"]%string else []) ++ (if kc_mI c then ["matter_intrinsic_power"]%string else []))%list.
Definition lk_bases : list string :=
  ["galaxy_linear_bias"; "galaxy_power"; "galaxy_matter_linear_bias"; "matter_galaxy_power"; "intrinsic_power"; "galaxy_intrinsic_power"; "matter_intrinsic_power"]%string.
(** Suffix of bin [nb] of [n]: the sample, and the number of the bin unless there is one bin. *)
Definition bin_end (c : kconfig) (n : Z) (nb : nat) (sfx : string) : Prop :=
  (n = 1%Z /\ sfx = kc_pop c) \/ (n <> 1%Z /\ sfx = (kc_pop c ++ "_" ++ dec (nb + 1))%string).
(** A spectrum that involves matter, or galaxies, is asked for. *)
Definition asks_matter (c : kconfig) : Prop := kc_mm c = true \/ kc_gm c = true \/ kc_mI c = true.
Definition asks_galaxies (c : kconfig) : Prop := kc_gg c = true \/ kc_gm c = true \/ kc_gI c = true \/ kc_mI c = true \/ kc_II c = true.
(** The section of the matter power. *)
Definition matter_section (c : kconfig) (s : string) : Prop :=
  asks_matter c /\ ((kc_response c = true /\ s = "matter_power_hm"%string) \/ (kc_response c = false /\ kc_mm c = true /\ s = "matter_power_nl"%string)).
Definition bin_section (c : kconfig) (n : Z) (s : string) : Prop :=
  exists p nb sfx, In p (requested c) /\ (nb < Z.to_nat n)%nat /\ bin_end c n nb sfx /\ s = (p ++ sfx)%string.
(** The section of the occupation is none of those the module can write. *)
Definition hod_apart (c : kconfig) : Prop :=
  kc_hod c <> "matter_power_nl"%string /\ kc_hod c <> "matter_power_hm"%string /\ forall p sfx, In p lk_bases -> kc_hod c <> (p ++ sfx)%string.
