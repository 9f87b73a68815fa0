(** Vocabulary for the statements about caching in class Spectra. *)
From Coq Require Import String List Bool.
From Verif Require Import CacheModel CacheTable.
Import ListNotations.
Open Scope string_scope.
Open Scope list_scope.

Section Spec.
  Context {V : Type}.
  Variable sel : string -> V -> string.
  Variable code : string -> prog V.
  Variable permanent switch selectors frozen : list string.

  (** The updates considered: not of a frozen parameter, and of a parameter that selects
      branches only to a value of the same class (a switch may change freely). *)
  Definition allowed (e : string -> V) (p : string) (v : V) : Prop :=
    ~ In p frozen /\ (In p selectors -> ~ In p switch -> sel p v = sel p (e p)).

  (** Objects reached from a new one by any reads and allowed updates in any order. *)
  Inductive session (e : string -> V) : object V -> Prop :=
  | s_new : session e (fresh e)
  | s_read s q v s' : session e s -> read code permanent s q v s' -> session e s'
  | s_set s p v s' : session e s -> allowed (par s) p v ->
      update permanent switch s p v s' -> session e s'.
End Spec.

(** Bodies that read what the bodies in pk.py and hmi.py read; what they compute is open. *)
Definition spectra_code {V} (sel : string -> V -> string) (code : string -> prog V) : Prop :=
  forall q, has_shape sel (code q) (spectra_shape q).

(** Histories of a Spectra object in which the parameters [frozen] are not updated. *)
Definition spectra_session {V} (sel : string -> V -> string) (code : string -> prog V)
    (frozen : list string) : (string -> V) -> object V -> Prop :=
  session sel code spectra_permanent spectra_switches spectra_selectors frozen.

(** Reading attribute [q] of [s] gives what a new object with the same parameters gives. *)
Definition reads_as_new {V} (code : string -> prog V) (s : object V) (q : string) : Prop :=
  forall v s', read code spectra_permanent s q v s' ->
  forall v' s'', read code spectra_permanent (fresh (par s)) q v' s'' -> v' = v.

(** The parameters hmi.py:229-248 cosmo_model is built from. *)
Definition cosmology : list string :=
  ["h0"; "omega_b"; "omega_c"; "Neff"; "m_nu"; "tcmb"; "w0"; "wa"].

(** The attributes that may consult omega_m (hmi.py:250-253), directly or through others. *)
Definition through_omega_m : list string :=
  ["omega_m"; "calc_bnl"; "_beta_nl_array"; "I12"; "I21"; "I22";
   "matter_profile_with_feedback"; "_power_spectrum_mm"; "power_spectrum_mm";
   "power_spectrum_gg"; "power_spectrum_gm"; "power_spectrum_mi"; "power_spectrum_ii";
   "power_spectrum_gi"].

(** Values of the options that select a branch reading omega_m in the profiles
    (pk.py:1556-1564, 1991-1998, 2358-2365). *)
Definition no_feedback : list (string * string) :=
  [("hmcode_ingredients", "mead2020_feedback"); ("hmcode_ingredients", "fit");
   ("pointmass", "True")].
