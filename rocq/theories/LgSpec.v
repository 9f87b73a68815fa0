(** Vocabulary of C133 and C134: the legacy halo-model ingredients. *)
From Verif Require Import Base FftModel HmiModel HmiSpec ChainModel LgModel.
Open Scope R_scope.

(** The same module asked for the single redshift [z]. *)
Definition only (cfg : lg_config) (z : R) : lg_config :=
  {| lc_z := [z]; lc_mass := lc_mass cfg; lc_mdef := lc_mdef cfg; lc_overdensity := lc_overdensity cfg;
     lc_delta_c := lc_delta_c cfg; lc_mead := lc_mead cfg; lc_nk := lc_nk cfg; lc_values := lc_values cfg |}.

(** The variance of the density field knows nothing of profiles and concentrations. *)
Definition profile_free {A} (q : hpar -> A) : Prop :=
  forall x x', hp_z x = hp_z x' -> hp_mdef x = hp_mdef x' -> hp_mdef_par x = hp_mdef_par x' ->
    hp_delta_c x = hp_delta_c x' -> hp_hmf x = hp_hmf x' -> hp_bias x = hp_bias x' ->
    hp_noconv x = hp_noconv x' -> q x = q x'.

(** The quantities of the haloes as a population (mass function, bias, peak height, densities). *)
Definition population (q : lg_reads) : Prop :=
  profile_free (rd_nu q) /\ profile_free (rd_dndlnm q) /\ profile_free (rd_bias q) /\ profile_free (rd_mean q) /\
  profile_free (rd_neff q) /\ profile_free (rd_s8 q) /\ profile_free (rd_overdensity q) /\ profile_free (rd_mean0 q).

(** The ingredients of HaloModelIngredients with the choices of a legacy configuration: one profile and
    one concentration relation for centrals and satellites, the numbers of the block. *)
Definition as_class (cfg : lg_config) (x0 : hpar) (growth : cosmo -> R -> R) (logT : R) (i : lg_input) : hmi :=
  {| hi_ingr := match lc_mead cfg with None => NoIngr | Some NoFeedback => Mead2020 | Some Feedback => Mead2020Fb end;
     hi_z := lc_z cfg; hi_mdef := lc_mdef cfg; hi_hmf := hp_hmf x0; hi_bias := hp_bias x0;
     hi_prof_dm := hp_prof x0; hi_prof_sat := hp_prof x0; hi_conc_dm := hp_conc x0; hi_conc_sat := hp_conc x0;
     hi_norm_cen := [li_norm_cen i]; hi_norm_sat := [li_norm_sat i];
     hi_eta_cen := [li_eta_cen i]; hi_eta_sat := [li_eta_sat i];
     hi_overdensity := lc_overdensity cfg; hi_delta_c := lc_delta_c cfg; hi_log10T := logT;
     hi_cosmo := li_cosmo i;
     hi_growth := fun z => growth (li_cosmo i) (scale_factor z);
     hi_Growth := fun z => accumulated_growth (growth (li_cosmo i)) (scale_factor z) |}.

(** A dictionary assigned over an empty one is the dictionary, and a change of model leaves no parameters
    where there were none. *)
Definition from_nothing (dset : dict -> dict -> dict) (mset : string -> string -> dict -> dict) : Prop :=
  (forall k v, dset [] [(k, v)] = [(k, v)]) /\ (forall m m', mset m m' [] = []).

(** Two halo models for which every population quantity is the same. *)
Definition same_population (x y : hpar) : Prop :=
  hp_z x = hp_z y /\ hp_mdef x = hp_mdef y /\ hp_mdef_par x = hp_mdef_par y /\ hp_delta_c x = hp_delta_c y /\
  hp_hmf x = hp_hmf y /\ hp_bias x = hp_bias y /\ hp_noconv x = hp_noconv y.
