(** Freshness of the cached attributes of class Spectra. *)
From Coq Require Import String List Bool.
From Verif Require Import CacheModel CacheTable CacheSpec CacheFacts CacheSpectra.
Import ListNotations.
Open Scope string_scope.
Open Scope list_scope.

(** * C34: reads after updates *)

(** Reading any attribute of an object in any state ends with a value: no attribute depends
    on itself, whatever the options. *)
Theorem C34_reads_end :
  forall (V : Type) (sel : string -> V -> string) (code : string -> prog V),
    spectra_code sel code ->
    forall s q, exists v s', read code spectra_permanent s q v s'.
Proof. exact spectra_total. Qed.
Print Assumptions C34_reads_end.

(** After any reads and updates (including cosmology, data arrays and switches) that keep
    the non-switch options in their class, every attribute that cannot reach omega_m
    reads as on a new object with the current parameters. *)
Theorem C34_independent :
  forall (V : Type) (sel : string -> V -> string) (code : string -> prog V),
    spectra_code sel code ->
    forall e s q, spectra_session sel code [] e s -> ~ In q through_omega_m ->
    reads_as_new code s q.
Proof. exact independent. Qed.
Print Assumptions C34_independent.

(** The same for all six power spectra and everything else that is not itself omega_m or
    a baryon or emulator quantity, when the current options use no baryon feedback and
    take beta_nl from the caller or do not need it. *)
Theorem C34_no_feedback :
  forall (V : Type) (sel : string -> V -> string) (code : string -> prog V),
    spectra_code sel code ->
    forall e s q, spectra_session sel code [] e s ->
    (forall p c, In (p, c) no_feedback -> sel p (par s p) <> c) ->
    sel "nonlinear_mode" (par s "nonlinear_mode") <> "bnl" \/
    sel "beta_nl" (par s "beta_nl") <> "None" ->
    ~ In q ["omega_m"; "calc_bnl"; "matter_profile_with_feedback"; "_beta_nl_array"] ->
    reads_as_new code s q.
Proof. exact without_feedback. Qed.
Print Assumptions C34_no_feedback.

(** When no cosmological parameter is updated, every attribute reads as on a new object,
    with any options and any number of switch changes. *)
Theorem C34_cosmology_kept :
  forall (V : Type) (sel : string -> V -> string) (code : string -> prog V),
    spectra_code sel code ->
    forall e s q, spectra_session sel code cosmology e s -> reads_as_new code s q.
Proof. exact cosmology_kept. Qed.
Print Assumptions C34_cosmology_kept.

(** Without these provisos it fails: with feedback, after an update of omega_c the matter
    spectrum is computed with the old omega_m. *)
Theorem C34_omega_m_refuted :
  exists (sel : string -> nat -> string) (code : string -> prog nat) e s,
    spectra_code sel code /\ spectra_session sel code [] e s /\
    ~ reads_as_new code s "power_spectrum_mm" /\ ~ reads_as_new code s "omega_m".
Proof. exact omega_m_stale. Qed.
Print Assumptions C34_omega_m_refuted.

(** And after hmcode_ingredients changed class between two reads, an update of log10T_AGN
    is not seen by K. *)
Theorem C34_selector_refuted :
  exists (sel : string -> nat -> string) (code : string -> prog nat) e s0 s1 s2 v s3 s4,
    spectra_code sel code /\ spectra_session sel code [] e s0 /\
    read code spectra_permanent s0 "K" v s1 /\
    update spectra_permanent spectra_switches s1 "hmcode_ingredients" 6 s2 /\
    (exists w, read code spectra_permanent s2 "K" w s3) /\
    update spectra_permanent spectra_switches s3 "log10T_AGN" 8 s4 /\
    ~ reads_as_new code s4 "K".
Proof. exact selector_stale. Qed.
Print Assumptions C34_selector_refuted.

(** A history that meets the hypotheses: read gm, update omega_c, change the mode, read
    gi, update matter_power_lin and t_eff, read gi again. *)
Example C34_case :
  spectra_code ex_sel ex_code /\ spectra_session ex_sel ex_code [] ok_par ok_6 /\
  par ok_6 "omega_c" = 2 /\ ok_par "omega_c" = 1 /\
  (forall p c, In (p, c) no_feedback -> ex_sel p (par ok_6 p) <> c) /\
  ex_sel "nonlinear_mode" (par ok_6 "nonlinear_mode") = "fortuna" /\
  (exists s', read ex_code spectra_permanent ok_6 "power_spectrum_gi" 2605 s') /\
  (exists s', read ex_code spectra_permanent (fresh (par ok_6)) "power_spectrum_gi" 2605 s').
Proof.
  split; [exact ex_conform|]. split; [exact ok_session|].
  split; [vm_compute; reflexivity|]. split; [vm_compute; reflexivity|]. split.
  { intros p c [E|[E|[E|[]]]]; injection E as <- <-; vm_compute; discriminate. }
  split; [vm_compute; reflexivity|]. split; [exact ok_read | exact ok_read_new].
Qed.
