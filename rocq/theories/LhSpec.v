(** Vocabulary for the statements about the legacy HOD module. *)
From Coq Require Import ZArith.
From Verif Require Import Base Quad Interp OptModel ChainModel HodModel PipeSpec AupSpec LiaSpec.
Open Scope R_scope.

(** An option with an array or one number. *)
Definition gives_list (o : options) (n : string) (l : list R) : Prop := o n = Some (OArr l) \/ exists x, gives o n x /\ l = [x].
(** [s] are the settings of HOD (src/onepower/hod.py) that say what the options say; [rows] is the content of a
    file. *)
Definition settings_say (rows : string -> res (list (R * R * R))) (o : options) (s : hod_settings) : Prop :=
  ((exists f t, o "observables_file"%string = Some (OStr f) /\ rows f = Ok t /\ hs_file s = Some t) \/
   (o "observables_file"%string = None /\ (o "mass_lim"%string = None \/ o "mass_lim_low"%string = None) /\ hs_file s = None /\
    gives_list o "log10_obs_min" (hs_obs_min s) /\ gives_list o "log10_obs_max" (hs_obs_max s) /\ gives_list o "zmin" (hs_zmin s) /\ gives_list o "zmax" (hs_zmax s) /\
    o "nz"%string = Some (OInt (Z.of_nat (hs_nz s))))) /\
  (o "nobs"%string = Some (OInt (Z.of_nat (hs_nobs s))) \/ (o "nobs"%string = None /\ hs_nobs s = 200%nat)) /\
  (exists u, text o "observable_h_unit" "1/h^2" u /\ hs_unit s = lower u).
(** Section names. *)
Definition section_is (o : options) (n d s : string) : Prop := exists t, text o n d t /\ s = lower t.
(** [md] has the parameters the block has in section [v], the one of bin [k] under the name of that bin. *)
Definition model_says (b : dblock) (v name : string) (bins : nat) (md : hod_model) : Prop :=
  let par n l := forall k, (k < bins)%nat -> reads b v (PipeSpec.bin_name n bins k) (bin_par l k) in
  match md with
  | Cacciato p => name = "Cacciato"%string /\
      reads b v "log10_obs_norm_c" (ca_log10_obs_norm_c p) /\ reads b v "log10_m_ch" (ca_log10_m_ch p) /\ reads b v "g1" (ca_g1 p) /\ reads b v "g2" (ca_g2 p) /\
      reads b v "sigma_log10_O_c" (ca_sigma p) /\ reads b v "norm_s" (ca_norm_s p) /\ reads b v "pivot" (ca_pivot p) /\ reads b v "alpha_s" (ca_alpha_s p) /\
      reads b v "beta_s" (ca_beta_s p) /\ reads b v "b0" (ca_b0 p) /\ reads b v "b1" (ca_b1 p) /\ reads b v "b2" (ca_b2 p) /\
      may_read b v "A_cen" (ca_A_cen p) /\ may_read b v "A_sat" (ca_A_sat p)
  | Zheng p => name = "Zheng"%string /\ par "log10_Mmin"%string (zh_log10_Mmin p) /\ par "sigma"%string (zh_sigma p) /\ par "log10_M0"%string (zh_log10_M0 p) /\
      par "log10_M1"%string (zh_log10_M1 p) /\ par "alpha"%string (zh_alpha p) /\ may_read b v "A_cen" (zh_A_cen p) /\ may_read b v "A_sat" (zh_A_sat p)
  | Zhai p => name = "Zhai"%string /\ par "log10_Mmin"%string (zi_log10_Mmin p) /\ par "sigma"%string (zi_sigma p) /\ par "log10_Msat"%string (zi_log10_Msat p) /\
      par "log10_Mcut"%string (zi_log10_Mcut p) /\ par "alpha"%string (zi_alpha p) /\ may_read b v "A_cen" (zi_A_cen p) /\ may_read b v "A_sat" (zi_A_sat p)
  | _ => False
  end.
(** The mass function of [c] is that of the block, its bias (if asked for) and h (if used) too. *)
Definition halos_say (b : dblock) (bias : bool) (c : hod_ctx) : Prop :=
  (exists mass z dn, b "hmf"%string "m_h"%string = Some (BArr mass) /\ b "hmf"%string "z"%string = Some (BArr z) /\ b "hmf"%string "dndlnmh"%string = Some (BTab dn) /\
    c_nm c = List.length mass /\ c_mass c = (fun m => nth m mass 0) /\ c_nzv c = List.length z /\ c_zvec c = (fun i => nth i z 0) /\
    c_dndlnm c = (fun i m => nth m (nth i dn []) 0) /\
    (bias = true -> exists hb, b "halobias"%string "z"%string = Some (BArr z) /\ b "halobias"%string "b_hb"%string = Some (BTab hb) /\ c_bias c = (fun i m => nth m (nth i hb []) 0))) /\
  (hs_unit (c_set c) = "1/h^2"%string -> reads b "cosmological_parameters" "h0" (c_h c)).
(** Options, block, HOD object and the names of the sections. *)
Definition hod_says (rows : string -> res (list (R * R * R))) (o : options) (b : dblock) (sec osec vals : string) (bias : bool) (c : hod_ctx) (md : hod_model) : Prop :=
  settings_say rows o (c_set c) /\ (exists t, o "hod_section_name"%string = Some (OStr t) /\ sec = lower t) /\
  section_is o "observable_section_name" "stellar_mass_function" osec /\ section_is o "values_name" "hod_parameters" vals /\
  (o "do_galaxy_linear_bias"%string = Some (OBool bias) \/ (o "do_galaxy_linear_bias"%string = None /\ bias = false)) /\
  (exists name, text o "hod_model" "Cacciato" name /\ model_says b vals name (nbins (c_set c)) md) /\ halos_say b bias c.
(** What is written and what is read is in different sections. *)
Definition apart (sec osec vals : string) : Prop :=
  sec <> osec /\ forall s, In s [vals; "hmf"; "halobias"; "cosmological_parameters"]%string -> s <> sec /\ s <> osec.
(** The entry holds the table [f] of [n] rows and [m] columns; the array [f]. *)
Definition holds_table (v : option bval) (n m : nat) (f : nat -> nat -> R) : Prop :=
  exists t, v = Some (BTab t) /\ List.length t = n /\ forall j, (j < n)%nat -> List.length (nth j t []) = m /\ forall k, (k < m)%nat -> nth k (nth j t []) 0 = f j k.
Definition holds_array (v : option bval) (n : nat) (f : nat -> R) : Prop :=
  exists l, v = Some (BArr l) /\ List.length l = n /\ forall j, (j < n)%nat -> nth j l 0 = f j.
(** The tables of the block have the shapes of their axes. *)
Definition halos_fit (b : dblock) (bias : bool) : Prop :=
  forall mass z dn hb, b "hmf"%string "m_h"%string = Some (BArr mass) -> b "hmf"%string "z"%string = Some (BArr z) -> b "hmf"%string "dndlnmh"%string = Some (BTab dn) ->
    (2 <= List.length z)%nat /\ List.length dn = List.length z /\ (forall r, In r dn -> List.length r = List.length mass) /\
    (bias = true -> b "halobias"%string "b_hb"%string = Some (BTab hb) -> List.length hb = List.length z /\ forall r, In r hb -> List.length r = List.length mass).
(** No occupation in bin [k] is negative. *)
Definition occupied (c : hod_ctx) (md : hod_model) (k : nat) : Prop :=
  forall j m, (j < nz (c_set c))%nat -> (m < c_nm c)%nat -> 0 <= compute_hod_cen c md k j m /\ 0 <= compute_hod_sat c md k j m.
(** The least and the greatest of some numbers; the observables and the redshifts of the bins. *)
Definition least_of (P : R -> Prop) (x : R) : Prop := P x /\ forall y, P y -> x <= y.
Definition most_of (P : R -> Prop) (x : R) : Prop := P x /\ forall y, P y -> y <= x.
Definition observables (s : hod_settings) (y : R) : Prop := exists k j o, (k < nbins s)%nat /\ (j < nz s)%nat /\ (o < hs_nobs s)%nat /\ y = hod_obs s k j o.
Definition bin_observables (s : hod_settings) (k : nat) (y : R) : Prop := exists j o, (j < nz s)%nat /\ (o < hs_nobs s)%nat /\ y = hod_obs s k j o.
Definition redshifts (s : hod_settings) (y : R) : Prop := exists k j, (k < nbins s)%nat /\ (j < nz s)%nat /\ y = hod_z s k j.
(** The parameters the module asks for. *)
Definition parameters_of_model (name : string) : list string :=
  if String.eqb name "Zheng" then ["log10_Mmin"; "sigma"; "log10_M0"; "log10_M1"; "alpha"]%string
  else if String.eqb name "Zhai" then ["log10_Mmin"; "sigma"; "log10_Msat"; "log10_Mcut"; "alpha"]%string
  else ["log10_obs_norm_c"; "log10_m_ch"; "g1"; "g2"; "sigma_log10_O_c"; "norm_s"; "pivot"; "alpha_s"; "beta_s"; "b0"; "b1"; "b2"]%string.
(** Only the two counts were added. *)
Definition only_counts (b b' : dblock) (sec : string) (n oz : Z) : Prop :=
  b' sec "nbins"%string = Some (BInt n) /\ b' sec "observable_z"%string = Some (BInt oz) /\
  forall s k, ~ (s = sec /\ (k = "nbins"%string \/ k = "observable_z"%string)) -> b' s k = b s k.
(** The mass function at redshift [z], and the integral over it of the conditional function [f] at observable [x]. *)
Definition mass_function_at (c : hod_ctx) (z : R) (m : nat) : R := interp1d Extrapolate (c_nzv c) (c_zvec c) (fun i => c_dndlnm c i m) z.
Definition observable_function (c : hod_ctx) (f : R -> R -> R) (z x : R) : R := simpson (c_nm c) (fun m => f x (c_mass c m) * mass_function_at c z m / c_mass c m) (c_mass c).
(** The three functions and the ends of their names. *)
Definition which (sfx : string) (p : cacciato_par) : R -> R -> R := if String.eqb sfx "" then cof p else if String.eqb sfx "_c" then cof_cen p else cof_sat p.
