(** The options of the legacy power-spectrum module. *)
From Coq Require Import ZArith.
From Verif Require Import Base PkModel PipeModel OptModel ChainModel AupModel AupSpec LiaModel LiaSpec LhModel LhSpec LhSpec2 LkModel.
Open Scope R_scope.

(** A wavenumber, or 'None' for no truncation. *)
Definition truncation (o : options) (n : string) (d : R) (v : option R) : Prop :=
  (o n = Some (OStr "None") /\ v = None) \/ (exists x, v = Some x /\ number o n d x).
Definition correction (t : string) (m : option mead) : Prop :=
  (t = "mead2020"%string /\ m = Some NoFeedback) \/ (t = "mead2020_feedback"%string /\ m = Some Feedback) \/ (t = "fit_feedback"%string /\ m = Some FitFeedback) \/
  (t <> "mead2020"%string /\ t <> "mead2020_feedback"%string /\ t <> "fit_feedback"%string /\ m = None).
Record spectra_options (o : options) (c : kconfig) : Prop := {
  so_mm : switch o "p_mm" false (kc_mm c); so_gg : switch o "p_gg" false (kc_gg c); so_gm : switch o "p_gm" false (kc_gm c);
  so_gI : switch o "p_gI" false (kc_gI c); so_mI : switch o "p_mI" false (kc_mI c); so_II : switch o "p_II" false (kc_II c);
  so_response : switch o "response" false (kc_response c); so_fortuna : switch o "fortuna" false (kc_fortuna c); so_bnl : switch o "bnl" false (kc_bnl c);
  so_pm : switch o "point_mass" false (kc_pm c); so_dewiggle : switch o "dewiggle" false (kc_dewiggle c); so_poisson : text o "poisson_type" "" (kc_poisson c);
  so_k1i : truncation o "one_halo_ktrunc_ia" 4 (kc_k1_ia c); so_k2i : truncation o "two_halo_ktrunc_ia" 6 (kc_k2_ia c);
  so_k1 : truncation o "one_halo_ktrunc" (1 / 10) (kc_k1 c); so_k2 : truncation o "two_halo_ktrunc" 2 (kc_k2 c);
  so_hod : o "hod_section_name"%string = Some (OStr (kc_hod c)); so_pop : exists t, text o "output_suffix" "" t /\ part_of_name (lower t) (kc_pop c);
  so_mead : exists t, text o "use_mead2020_corrections" "None" t /\ correction t (kc_mead c) }.
