(** Vocabulary of the option reading properties.  Independent of the reading functions. *)
From Coq Require Import ZArith.
From Verif Require Import Base PipeModel OptModel.
Open Scope string_scope.

(** ** Kinds of values *)
Inductive kind := KDouble | KInt | KBool | KString | KOptional | KArray | KCount.
Definition of_kind (k : kind) (v : oval) : Prop :=
  match k, v with
  | KDouble, (OInt _ | ODbl _) => True
  | KInt, OInt _ => True
  | KBool, OBool _ => True
  | KString, OStr _ => True
  | KOptional, (OInt _ | ODbl _ | OStr _) => True
  | KArray, (OInt _ | ODbl _ | OBool _ | OArr (_ :: _)) => True
  | KCount, OInt z => (0 <= z)%Z
  | _, _ => False
  end.
(** Absent or of the right kind; present and of the right kind. *)
Definition typed (o : options) (nk : string * kind) : Prop :=
  match o (fst nk) with None => True | Some v => of_kind (snd nk) v end.
Definition given (o : options) (nk : string * kind) : Prop :=
  exists v, o (fst nk) = Some v /\ of_kind (snd nk) v.
Definition flag (o : options) (n : string) : Prop := o n = Some (OBool true).
Definition wants_galaxies (o : options) : Prop := flag o "p_gg" \/ flag o "p_gm".
Definition wants_alignment (o : options) : Prop := flag o "p_gI" \/ flag o "p_mI" \/ flag o "p_II".

(** ** The options, by when they are looked at *)
Definition always_read : list (string * kind) :=
  [("p_mm", KBool); ("p_gg", KBool); ("p_gm", KBool); ("p_gI", KBool); ("p_mI", KBool); ("p_II", KBool);
   ("response", KBool); ("split_ia", KBool);
   ("one_halo_ktrunc_ia", KOptional); ("two_halo_ktrunc_ia", KOptional); ("one_halo_ktrunc", KOptional);
   ("two_halo_ktrunc", KOptional); ("hmcode_ingredients", KOptional); ("nonlinear_mode", KOptional);
   ("dewiggle", KBool); ("point_mass", KBool); ("poisson_type", KString);
   ("hod_section_name", KString); ("values_name", KString); ("output_suffix", KString); ("hod_model", KString);
   ("save_observable", KBool);
   ("log_mass_min", KDouble); ("log_mass_max", KDouble); ("nmass", KInt); ("zmin_hmf", KDouble); ("zmax_hmf", KDouble);
   ("nz_hmf", KCount); ("nk", KInt); ("profile_cen", KString); ("profile_sat", KString); ("profile_value_name", KString);
   ("hmf_model", KString); ("mdef_model", KString); ("overdensity", KDouble); ("cm_model_cen", KString);
   ("cm_model_sat", KString); ("delta_c", KDouble); ("bias_model", KString)].
Definition limits (suf : string) : list (string * kind) :=
  [("log10_obs_min_" ++ suf, KArray); ("log10_obs_max_" ++ suf, KArray); ("zmin_" ++ suf, KArray);
   ("zmax_" ++ suf, KArray); ("nz_" ++ suf, KCount)].
(** A sample described by explicit limits, or by a file.  Only the galaxies need non-empty
    limits at this stage. *)
Definition nearly (nk : string * kind) (o : options) : Prop :=
  given o nk \/ (snd nk = KArray /\ o (fst nk) = Some (OArr [])).
Definition sample_given (o : options) (suf : string) : Prop :=
  ((exists f, o ("observables_file_" ++ suf) = Some (OStr f)) \/
   (o ("observables_file_" ++ suf) = None /\ Forall (fun nk => nearly nk o) (limits suf))) /\
  given o ("nobs_" ++ suf, KCount) /\ typed o ("observable_h_unit", KString).
Definition limits_given (o : options) (suf : string) : Prop :=
  o ("observables_file_" ++ suf) = None /\ Forall (given o) (limits suf) /\
  given o ("nobs_" ++ suf, KCount) /\ typed o ("observable_h_unit", KString).

(** What a usable set of options is: [missing] is the class of a missing block value and
    [darkemu] whether the Dark Emulator is installed. *)
Definition usable (missing : string) (darkemu : bool) (o : options) : Prop :=
  Forall (typed o) always_read /\ o "nmass" <> Some (OInt 0) /\
  (missing = "ValueError" \/ (o "hmcode_ingredients" <> None /\ o "nonlinear_mode" <> None)) /\
  (wants_galaxies o -> limits_given o "hod") /\
  (wants_alignment o ->
     typed o ("central_IA_depends_on", KString) /\ typed o ("satellite_IA_depends_on", KString) /\
     (flag o "split_ia" -> given o ("hod_section_name_ia_1", KString) /\ given o ("hod_section_name_ia_2", KString) /\
        typed o ("output_suffix_ia_1", KString) /\ typed o ("output_suffix_ia_2", KString) /\
        sample_given o "ia_1" /\ sample_given o "ia_2") /\
     (~ flag o "split_ia" -> given o ("hod_section_name_ia", KString) /\ typed o ("output_suffix_ia", KString) /\
        sample_given o "ia")) /\
  (flag o "save_observable" -> sample_given o "smf" /\ typed o ("observable_section_name", KString)) /\
  (o "nonlinear_mode" = Some (OStr "bnl") -> darkemu = true /\ given o ("update_bnl", KInt)).

(** ** Documented defaults, cosmosis_modules/module.yaml:58-275; None is written 'None'. *)
Definition oset (o : options) (n : string) (v : oval) : options :=
  fun m => if String.eqb m n then Some v else o m.
Definition documented : list (string * oval) :=
  [("p_mm", OBool false); ("p_gm", OBool false); ("p_gg", OBool false); ("p_II", OBool false); ("p_mI", OBool false);
   ("p_gI", OBool false); ("response", OBool false); ("split_ia", OBool false); ("point_mass", OBool false);
   ("dewiggle", OBool false); ("poisson_type", OStr ""); ("one_halo_ktrunc_ia", ODbl 4); ("two_halo_ktrunc_ia", ODbl 6);
   ("one_halo_ktrunc", ODbl (1/10)); ("two_halo_ktrunc", ODbl 2); ("hod_section_name", OStr "hod");
   ("output_suffix", OStr ""); ("output_suffix_ia", OStr ""); ("output_suffix_ia_1", OStr ""); ("output_suffix_ia_2", OStr "");
   ("values_name", OStr "hod_parameters"); ("hod_model", OStr "Cacciato"); ("save_observable", OBool false);
   ("observable_section_name", OStr "stellar_mass_function"); ("observable_h_unit", OStr "1/h^2");
   ("central_IA_depends_on", OStr "halo_mass"); ("satellite_IA_depends_on", OStr "halo_mass");
   ("log_mass_min", ODbl 9); ("log_mass_max", ODbl 16); ("nmass", OInt 200); ("zmin_hmf", ODbl 0); ("zmax_hmf", ODbl 3);
   ("nz_hmf", OInt 15); ("profile_cen", OStr "NFW"); ("profile_sat", OStr "NFW"); ("nk", OInt 100);
   ("profile_value_name", OStr "profile_parameters"); ("hmf_model", OStr "Tinker10"); ("mdef_model", OStr "SOMean");
   ("overdensity", ODbl 200); ("cm_model_cen", OStr "Duffy08"); ("cm_model_sat", OStr "Duffy08");
   ("bias_model", OStr "Tinker10"); ("delta_c", ODbl (1686/1000))].
(** Documented with default None. *)
Definition documented_none : list string := ["nonlinear_mode"; "hmcode_ingredients"].
(** Documented with a default the code does not have (module.yaml:112-124, 168-172). *)
Definition documented_wrongly : list (string * oval) :=
  [("hod_section_name_ia", OStr "ia"); ("hod_section_name_ia_1", OStr "ia_1"); ("hod_section_name_ia_2", OStr "ia_2");
   ("nobs_hod", OInt 100); ("nobs_ia", OInt 100); ("nobs_ia_1", OInt 100); ("nobs_ia_2", OInt 100)].

(** Every name the module looks up in its options. *)
Definition sample_names (suf : string) : list string :=
  ("observables_file_" ++ suf) :: ("nobs_" ++ suf) :: map fst (limits suf).
Definition names_read : list string :=
  (map fst always_read ++
  ["central_IA_depends_on"; "satellite_IA_depends_on"; "hod_section_name_ia"; "hod_section_name_ia_1"; "hod_section_name_ia_2";
   "output_suffix_ia"; "output_suffix_ia_1"; "output_suffix_ia_2"; "observable_h_unit"; "observable_section_name"; "update_bnl"] ++
  sample_names "hod" ++ sample_names "ia" ++ sample_names "ia_1" ++ sample_names "ia_2" ++ sample_names "smf")%list.

(** [o'] is [o] with any number of documented defaults written out. *)
Definition written_out (o o' : options) : Prop :=
  forall n, In n names_read -> o n = o' n \/ (o n = None /\ exists v, dget documented n = Some v /\ o' n = Some v).
(** The same with the defaults None written 'None'. *)
Definition written_out_none (o o' : options) : Prop :=
  forall n, In n names_read -> o n = o' n \/
    (o n = None /\ ((exists v, dget documented n = Some v /\ o' n = Some v) \/
                    (In n documented_none /\ o' n = Some (OStr "None")))).

(** cosmosis_modules/example_ini_files/pipeline.ini:64-158, section [onepower]. *)
Definition example_ini : options := fun n =>
  dget [("file", OStr "..//onepower_interface.py");
    ("log_mass_min", ODbl 10); ("log_mass_max", ODbl 16); ("nmass", OInt 200); ("zmin_hmf", ODbl 0); ("zmax_hmf", ODbl 3);
    ("nz_hmf", OInt 15); ("nk", OInt 100); ("hmf_model", OStr "Tinker10"); ("bias_model", OStr "Tinker10");
    ("mdef_model", OStr "SOMean"); ("overdensity", ODbl 200); ("delta_c", ODbl (1686/1000)); ("cm_model", OStr "Duffy08");
    ("profile", OStr "NFW"); ("hod_section_name", OStr "hod"); ("observable_section_name", OStr "stellar_mass_function");
    ("save_observable", OBool true); ("values_name", OStr "hod_parameters"); ("hod_model", OStr "Cacciato");
    ("log10_obs_min_hod", OArr [8; 8]%R); ("log10_obs_max_hod", OArr [12; 12]%R); ("zmin_hod", OArr [0; 2/10]%R);
    ("zmax_hod", OArr [2/10; 5/10]%R); ("nz_hod", OInt 15); ("nobs_hod", OInt 300);
    ("log10_obs_min_smf", ODbl 8); ("log10_obs_max_smf", ODbl 12); ("zmin_smf", ODbl (1/10)); ("zmax_smf", ODbl (1/10));
    ("nz_smf", OInt 1); ("nobs_smf", OInt 300); ("update_bnl", OInt 10); ("bnl", OBool true);
    ("p_mm", OBool true); ("p_gg", OBool true); ("p_gm", OBool true); ("p_gI", OBool true); ("p_mI", OBool true);
    ("p_II", OBool true); ("split_ia", OBool true); ("poisson_type", OStr "constant"); ("point_mass", OBool true);
    ("dewiggle", OBool true); ("mead2020_correction", OStr "fit_feedback");
    ("central_IA_depends_on", OStr "halo_mass"); ("satellite_IA_depends_on", OStr "halo_mass");
    ("hod_section_name_ia", OStr "hod_ia"); ("observables_file_ia", OStr "../..//legacy_input_files/red_cen_lum_pdf.txt");
    ("nobs_ia", OInt 300); ("nz_ia", OInt 15); ("output_suffix_ia", OStr "ia");
    ("hod_section_name_ia_1", OStr "hod_ia_red"); ("observables_file_ia_1", OStr "../..//legacy_input_files/red_cen_lum_pdf.txt");
    ("nobs_ia_1", OInt 300); ("nz_ia_1", OInt 15); ("output_suffix_ia_1", OStr "ia_red");
    ("hod_section_name_ia_2", OStr "hod_ia_blue"); ("observables_file_ia_2", OStr "../..//legacy_input_files/red_cen_lum_pdf.txt");
    ("nobs_ia_2", OInt 300); ("nz_ia_2", OInt 15); ("output_suffix_ia_2", OStr "ia_blue")] n.

(** The number an option stands for, given its default. *)
Definition num (v : option oval) (d : R) : R :=
  match v with Some (OInt z) => IZR z | Some (ODbl x) => x | _ => d end.
Definition int (v : option oval) (d : Z) : Z := match v with Some (OInt z) => z | _ => d end.

(** The names that matter for given flags. *)
Definition b_flag (o : options) (n : string) : bool := match o n with Some (OBool true) => true | _ => false end.
Definition b_galaxies (o : options) : bool := (b_flag o "p_gg" || b_flag o "p_gm")%bool.
Definition b_alignment (o : options) : bool := (b_flag o "p_gI" || b_flag o "p_mI" || b_flag o "p_II")%bool.
Definition b_bnl (o : options) : bool := match o "nonlinear_mode" with Some (OStr m) => String.eqb m "bnl" | _ => false end.
Definition sample_needed (suf : string) : list string := "observable_h_unit" :: sample_names suf.
Definition alignment_needed (split : bool) : list string :=
  (["central_IA_depends_on"; "satellite_IA_depends_on"] ++
   (if split then ["hod_section_name_ia_1"; "hod_section_name_ia_2"; "output_suffix_ia_1"; "output_suffix_ia_2"]
    else ["hod_section_name_ia"; "output_suffix_ia"]) ++
   (if split then sample_needed "ia_1" ++ sample_needed "ia_2" else sample_needed "ia"))%list.
Definition names_needed (o : options) : list string :=
  (map fst always_read ++ (if b_galaxies o then sample_needed "hod" else []) ++
   (if b_alignment o then alignment_needed (b_flag o "split_ia") else []) ++
   (if b_flag o "save_observable" then "observable_section_name" :: sample_needed "smf" else []) ++
   (if b_bnl o then ["update_bnl"] else []))%list.

(** ** What the configuration should hold *)
Definition text (v : option oval) (d : string) : string := match v with Some (OStr s) => s | _ => d end.
Definition numbers (v : option oval) : list R :=
  match v with
  | Some (OInt z) => [IZR z] | Some (ODbl x) => [x] | Some (OBool b) => [if b then 1%R else 0%R] | Some (OArr l) => l
  | _ => []
  end.
Definition count (v : option oval) : nat := match v with Some (OInt z) => Z.to_nat z | _ => 0%nat end.
Definition population (s : string) : string := if String.eqb s "" then "" else "_" ++ lower s.
Definition optional (v : option oval) (d : option R) : option val :=
  match v with
  | Some (OStr s) => if String.eqb s "None" then None else Some (VStr s)
  | Some (OInt z) => Some (VNum (IZR z)) | Some (ODbl x) => Some (VNum x)
  | _ => match d with Some x => Some (VNum x) | None => None end
  end.
(** The sample [suf] of the options, as a dictionary. *)
Definition sample_is (o : options) (suf : string) (d : settings) : Prop :=
  (forall f, o ("observables_file_" ++ suf) = Some (OStr f) -> dget d "observables_file" = Some (SStr f)) /\
  (o ("observables_file_" ++ suf) = None ->
     dget d "observables_file" = Some SNone /\
     dget d "obs_min" = Some (SArr (numbers (o ("log10_obs_min_" ++ suf)))) /\
     dget d "obs_max" = Some (SArr (numbers (o ("log10_obs_max_" ++ suf)))) /\
     dget d "zmin" = Some (SArr (numbers (o ("zmin_" ++ suf)))) /\
     dget d "zmax" = Some (SArr (numbers (o ("zmax_" ++ suf)))) /\
     dget d "nz" = Some (SNum (count (o ("nz_" ++ suf))))) /\
  dget d "nobs" = Some (SNum (count (o ("nobs_" ++ suf)))) /\
  dget d "observable_h_unit" = Some (SStr (lower (text (o "observable_h_unit") "1/h^2"))).
(** Options that are read and used nowhere. *)
Definition unused := ["output_suffix"; "hod_section_name_ia_2"].
