(** Properties C133 and C134: the legacy halo-model ingredients, the halo model they carry from call to
    call, and HaloModelIngredients. *)
From Coq Require Import ZArith.
From Verif Require Import Base BaseFacts Quad FftModel HmiModel HmiSpec HmiFacts3 HmiFacts4 HmiFacts5 HmiExample OptModel Spec ChainModel MiniModel LgModel LgSpec LgFacts LgFacts2 LgFacts3 LgFacts4.
Open Scope R_scope.

(** ** C133 *)
(** Whatever was run before, and whatever failed in it, a call writes what it would write as the first
    call after setup. *)
Theorem C133_history : forall dset mset astro growth root sigma8 variance rd,
  setting_law dset -> model_law mset -> (forall b, profile_free (sigma8 b)) -> (forall b, profile_free (variance b)) ->
  forall cfg x0 bs, lg_chain dset mset astro growth root sigma8 variance rd cfg x0 bs
    = map (fun b => snd (lg_execute dset mset astro growth root sigma8 variance rd cfg x0 b)) bs.
Proof. intros; apply chain_is_fresh; assumption. Qed.
Print Assumptions C133_history.

(** The redshifts do not influence each other; the virial radii are those of the first redshift, the mean
    density that of the last. *)
Theorem C133_one_redshift : forall dset mset astro growth root sigma8 variance rd,
  setting_law dset -> model_law mset -> (forall b, profile_free (sigma8 b)) -> (forall b, profile_free (variance b)) ->
  let run := lg_execute dset mset astro growth root sigma8 variance rd in
  forall cfg x0 b o, snd (run cfg x0 b) = Ok o -> forall j, (j < List.length (lc_z cfg))%nat ->
  exists o', snd (run (only cfg (nth j (lc_z cfg) 0)) x0 b) = Ok o' /\ out_k o' = out_k o /\
    out_c_cen o' = [nth j (out_c_cen o) []] /\ out_c_sat o' = [nth j (out_c_sat o) []] /\
    out_rs_cen o' = [nth j (out_rs_cen o) []] /\ out_rs_sat o' = [nth j (out_rs_sat o) []] /\
    out_u_cen o' = [nth j (out_u_cen o) []] /\ out_u_sat o' = [nth j (out_u_sat o) []] /\
    out_mean o' = [nth j (out_mean o) 0] /\ out_rho_halo o' = [nth j (out_rho_halo o) 0] /\
    out_dndlnm o' = [nth j (out_dndlnm o) []] /\ out_nu o' = [nth j (out_nu o) []] /\
    out_neff o' = [nth j (out_neff o) 0] /\ out_s8 o' = [nth j (out_s8 o) 0] /\
    out_bias o' = [nth j (out_bias o) []] /\ out_fnu o' = out_fnu o /\
    (j = 0%nat -> out_rvir_cen o' = out_rvir_cen o /\ out_rvir_sat o' = out_rvir_sat o) /\
    (S j = List.length (lc_z cfg) -> out_mean0 o' = out_mean0 o /\ out_rho_crit o' = out_rho_crit o).
Proof. intros; apply one_redshift; assumption. Qed.
Print Assumptions C133_one_redshift.

Theorem C133_when_it_fails : forall dset mset astro growth root sigma8 variance rd,
  setting_law dset -> model_law mset -> (forall b, profile_free (sigma8 b)) -> (forall b, profile_free (variance b)) ->
  let run := lg_execute dset mset astro growth root sigma8 variance rd in
  forall cfg x0 b,
  (lc_z cfg <> [] -> ((exists o, snd (run cfg x0 b) = Ok o) <->
     forall z, In z (lc_z cfg) -> exists o, snd (run (only cfg z) x0 b) = Ok o)) /\
  (lc_z cfg = [] -> (exists e, lg_read astro cfg b = Err e /\ snd (run cfg x0 b) = Err e) \/
     snd (run cfg x0 b) = Err "IndexError"%string).
Proof. intros; split; intros; [apply when_fails|apply no_redshift]; assumption. Qed.
Print Assumptions C133_when_it_fails.

(** The corrections are those of two exact names; every other value of the option means none.  With them
    the mass function, bias, mass definition and concentration relation of the options are dropped. *)
Theorem C133_setup : forall masses prof0 missing wrong o cfg x0,
  lg_setup masses prof0 missing wrong o = Ok (cfg, x0) ->
  (lc_mead cfg = Some NoFeedback <-> o "use_mead2020_corrections"%string = Some (OStr "mead2020")) /\
  (lc_mead cfg = Some Feedback <-> o "use_mead2020_corrections"%string = Some (OStr "mead2020_feedback")) /\
  (lc_mead cfg <> None -> hp_hmf x0 = "ST"%string /\ hp_bias x0 = "ST99"%string /\ lc_mdef cfg = "SOVirial"%string /\
     hp_mdef x0 = "SOVirial"%string /\ hp_mdef_par x0 = [] /\ hp_conc x0 = "Duffy08"%string /\ hp_noconv x0 = true) /\
  (lc_mead cfg = None -> o "hmf_model"%string = Some (OStr (hp_hmf x0)) /\ o "bias_model"%string = Some (OStr (hp_bias x0)) /\
     o "mdef_model"%string = Some (OStr (hp_mdef x0)) /\ o "cm_model"%string = Some (OStr (hp_conc x0)) /\
     lc_mdef cfg = hp_mdef x0 /\ hp_noconv x0 = false /\
     dget (hp_mdef_par x0) "overdensity" = (if String.eqb (hp_mdef x0) "SOVirial" then None else Some (lc_overdensity cfg))) /\
  (exists z0 z1 nz, get_double missing wrong o "zmin" None = Ok z0 /\ get_double missing wrong o "zmax" None = Ok z1 /\
     o "nz"%string = Some (OInt nz) /\ (0 <= nz)%Z /\ lc_z cfg = map (linspace z0 z1 (Z.to_nat nz)) (seq 0 (Z.to_nat nz))) /\
  (exists mn mx nm, get_double missing wrong o "log_mass_min" None = Ok mn /\ get_double missing wrong o "log_mass_max" None = Ok mx /\
     o "nmass"%string = Some (OInt nm) /\ nm <> 0%Z /\ lc_mass cfg = masses mn mx ((mx - mn) / IZR nm)).
Proof. exact setup_choices. Qed.
Print Assumptions C133_setup.

(** The wavenumbers span those of the linear power; the transforms are one at the first of them. *)
Theorem C133_profiles : forall dset mset astro growth root sigma8 variance rd,
  setting_law dset -> model_law mset -> (forall b, profile_free (sigma8 b)) -> (forall b, profile_free (variance b)) ->
  let run := lg_execute dset mset astro growth root sigma8 variance rd in
  forall cfg x0 b o, snd (run cfg x0 b) = Ok o ->
  (forall x c m, (m < List.length (hd [] (rd_u (rd b (out_k o)) x c)))%nat -> nth m (hd [] (rd_u (rd b (out_k o)) x c)) 0 <> 0) ->
  (exists ks, b "matter_power_lin"%string "k_h"%string = Some (BArr ks) /\ ks <> [] /\ List.length (out_k o) = lc_nk cfg /\
     (0 < hd 0 ks -> 0 < last ks 0 -> (2 <= lc_nk cfg)%nat ->
        nth 0 (out_k o) 0 = hd 0 ks /\ nth (lc_nk cfg - 1) (out_k o) 0 = last ks 0)) /\
  (forall t u m, In t [out_u_cen o; out_u_sat o] -> In u t -> (m < List.length (hd [] u))%nat -> nth m (hd [] u) 0 = 1).
Proof. exact profiles. Qed.
Print Assumptions C133_profiles.

(** A run with and one without corrections, of two redshifts; laws met. *)
Example C133_case : setting_law dset_merge /\ model_law ex_mset /\ (forall b, profile_free (toy_s8 b)) /\
  (forall b, profile_free (toy_variance b)) /\
  (forall use, exists cfg x0, lg_setup toy_masses [] "missing" "wrong" (toy_options use) = Ok (cfg, x0) /\
     lc_mead cfg = lg_correction use /\ List.length (lc_z cfg) = 2%nat /\
     forall ns es, exists o, snd (toy_exec cfg x0 (toy_block ns es)) = Ok o) /\
  lg_correction "mead2020_feedback" = Some Feedback /\ lg_correction "Mead2020" = None.
Proof.
  split; [exact merge_law|]. split; [exact ex_mset_law|]. split; [exact toy_s8_free|]. split; [exact toy_variance_free|].
  split; [|split; reflexivity]. intros use. destruct (toy_set use) as (cfg & x0 & E & A1 & A2 & _).
  exists cfg, x0. split; [exact E|]. split; [exact A1|]. split; [rewrite A2; reflexivity|].
  intros ns es. exact (toy_runs use ns es cfg x0 E).
Qed.

(** ** C134 *)
(** The growth equation with its initial values, the accumulated growth and the two fits are those of the
    current code. *)
Theorem C134_growth : forall w0 wa c, co_w c = cpl_w w0 wa -> co_de c = cpl_de w0 wa ->
  lg_d_init c w0 wa = d_init c /\ lg_v_init c w0 wa = v_init c /\
  (forall a d v, 0 < a -> lg_rhs c w0 wa a d v = growth_rhs c a d v) /\
  (forall g a, lg_accumulated a g = accumulated_growth g a) /\
  (forall g G z, lg_dc_Mead (scale_factor z) (mead_Om c z) (mead_fnu c) g G = dc_Mead c g G z) /\
  (forall g G z, lg_Dv_Mead (scale_factor z) (mead_Om c z) (mead_fnu c) g G = Dv_Mead c g G z).
Proof.
  intros w0 wa c Hw Hd. destruct (same_growth w0 wa c Hw Hd) as (A & B & C).
  split; [exact A|]. split; [exact B|]. split; [exact C|]. split; [exact same_accumulated|]. split; reflexivity.
Qed.
Print Assumptions C134_growth.

(** Without corrections, every table of haloes is the one the class gives on the same choices. *)
Theorem C134_plain : forall dset mset astro growth root sigma8 variance rd,
  setting_law dset -> model_law mset -> (forall b, profile_free (sigma8 b)) -> (forall b, profile_free (variance b)) ->
  forall masses prof0 missing wrong op cfg x0, lg_setup masses prof0 missing wrong op = Ok (cfg, x0) ->
  forall logT b i o, lc_mead cfg = None -> lg_read astro cfg b = Ok i ->
  snd (lg_execute dset mset astro growth root sigma8 variance rd cfg x0 b) = Ok o ->
  let q := rd b (li_k i) in
  let C := fun A (f : hpar -> A) => acc_cen (as_class cfg x0 growth logT i) dset mset (sigma8 b) prof0 f in
  let T := fun A (f : hpar -> A) => acc_sat (as_class cfg x0 growth logT i) dset mset (sigma8 b) prof0 f in
  C _ (rd_cm q) = Ok (out_c_cen o) /\ T _ (rd_cm q) = Ok (out_c_sat o) /\
  C _ (rd_rs q) = Ok (out_rs_cen o) /\ T _ (rd_rs q) = Ok (out_rs_sat o) /\
  C _ (fun x => lg_normalise (rd_u q x None)) = Ok (out_u_cen o) /\
  T _ (fun x => lg_normalise (rd_u q x None)) = Ok (out_u_sat o) /\
  (exists rc rs, C _ (rd_rvir q) = Ok rc /\ T _ (rd_rvir q) = Ok rs /\
     out_rvir_cen o = hd [] rc /\ out_rvir_sat o = hd [] rs).
Proof.
  intros dset mset astro growth root sigma8 variance rd L1 L2 L3 L4 masses prof0 missing wrong op cfg x0 SE logT b i o.
  exact (plain_tables dset mset astro growth root sigma8 variance rd L1 L2 L3 L4 prof0 cfg x0 (setup_leaves _ _ _ _ _ _ _ SE) logT b i o).
Qed.
Print Assumptions C134_plain.

(** With or without corrections, mass function, bias, peak heights and densities are those of the class,
    although they are read off the halo model with the satellite settings. *)
Theorem C134_population : forall dset mset astro growth root sigma8 variance rd,
  setting_law dset -> model_law mset -> (forall b, profile_free (sigma8 b)) -> (forall b, profile_free (variance b)) ->
  forall masses prof0 missing wrong op cfg x0, lg_setup masses prof0 missing wrong op = Ok (cfg, x0) ->
  forall logT b i o, from_nothing dset mset ->
  (lc_mead cfg = Some Feedback -> block_num b "halo_model_parameters" "logT_AGN" = Ok logT) ->
  lg_read astro cfg b = Ok i ->
  snd (lg_execute dset mset astro growth root sigma8 variance rd cfg x0 b) = Ok o ->
  let q := rd b (li_k i) in
  let C := fun A (f : hpar -> A) => acc_cen (as_class cfg x0 growth logT i) dset mset (sigma8 b) prof0 f in
  population q ->
  C _ (rd_dndlnm q) = Ok (out_dndlnm o) /\ C _ (rd_bias q) = Ok (out_bias o) /\
  C _ (fun x => map sqrt (rd_nu q x)) = Ok (out_nu o) /\ C _ (rd_mean q) = Ok (out_mean o) /\
  C _ (rd_neff q) = Ok (out_neff o) /\ C _ (rd_s8 q) = Ok (out_s8 o) /\
  C _ (fun x => rd_overdensity q x * rd_mean0 q x) = Ok (out_rho_halo o) /\
  fnu (as_class cfg x0 growth logT i) = repeat (out_fnu o) (List.length (lc_z cfg)).
Proof.
  intros dset mset astro growth root sigma8 variance rd L1 L2 L3 L4 masses prof0 missing wrong op cfg x0 SE logT b i o.
  exact (population_tables dset mset astro growth root sigma8 variance rd L1 L2 L3 L4 prof0 cfg x0 (setup_leaves _ _ _ _ _ _ _ SE) logT b i o).
Qed.
Print Assumptions C134_population.

(** With corrections: the profile of centrals has the class's bloating and K times (1+zf)/(1+z), without
    norm_cen; satellites keep eta_sat and norm_sat of the block, which the class replaces; the scale radii
    are read with the concentration relation of setup, not with these concentrations. *)
Theorem C134_corrected : forall dset mset astro growth root sigma8 variance rd,
  setting_law dset -> model_law mset -> (forall b, profile_free (sigma8 b)) -> (forall b, profile_free (variance b)) ->
  forall masses prof0 missing wrong op cfg x0, lg_setup masses prof0 missing wrong op = Ok (cfg, x0) ->
  forall logT b i o m, from_nothing dset mset -> lc_mead cfg = Some m ->
  (m = Feedback -> block_num b "halo_model_parameters" "logT_AGN" = Ok logT) ->
  lg_read astro cfg b = Ok i ->
  snd (lg_execute dset mset astro growth root sigma8 variance rd cfg x0 b) = Ok o ->
  let q := rd b (li_k i) in
  let H := as_class cfg x0 growth logT i in
  exists cs, acc_cen H dset mset (sigma8 b) prof0 (fun x => x) = Ok cs /\
  List.length cs = List.length (lc_z cfg) /\
  forall j x, nth_error cs j = Some x ->
  let z := nth j (lc_z cfg) 0 in
  exists y y', same_population y x /\ same_population y' x /\
    hp_prof y = hp_prof x /\ hp_prof_par y = hp_prof_par x /\ hp_conc y = "Duffy08"%string /\ hp_conc_par y = [] /\
    hp_prof y' = hp_prof x /\ dget (hp_prof_par y') "eta_bloat" = Some (li_eta_sat i) /\
    hp_conc y' = "Duffy08"%string /\ hp_conc_par y' = [] /\
    nth j (out_rs_cen o) [] = rd_rs q y /\ nth j (out_rs_sat o) [] = rd_rs q y' /\
    nth j (out_u_cen o) [] = lg_normalise (rd_u q y (Some (nth j (out_c_cen o) []))) /\
    nth j (out_u_sat o) [] = lg_normalise (rd_u q y' (Some (nth j (out_c_sat o) []))) /\
    List.length (nth j (out_c_cen o) []) = List.length (lc_mass cfg) /\
    List.length (nth j (out_c_sat o) []) = List.length (lc_mass cfg) /\
    forall k, (k < List.length (lc_mass cfg))%nat -> exists zf,
      collapse_redshift (growth (li_cosmo i)) (variance b x) root (hp_delta_c x) z (nth k (lc_mass cfg) 0) = Ok zf /\
      nth k (nth j (out_c_cen o) []) 0 = K H z * (1 + zf) / (1 + z) /\
      nth k (nth j (out_c_sat o) []) 0 = li_norm_sat i * (1 + zf) / (1 + z).
Proof.
  intros dset mset astro growth root sigma8 variance rd L1 L2 L3 L4 masses prof0 missing wrong op cfg x0 SE logT b i o m.
  exact (mead_tables dset mset astro growth root sigma8 variance rd L1 L2 L3 L4 prof0 cfg x0 (setup_leaves _ _ _ _ _ _ _ SE) logT b i o m).
Qed.
Print Assumptions C134_corrected.

(** The corrected concentrations are at least their normalisation, and equal to it for the haloes whose
    seed has a variance below the collapse threshold. *)
Theorem C134_concentrations_at_least : forall dset mset astro growth root sigma8 variance rd,
  setting_law dset -> model_law mset -> (forall b, profile_free (sigma8 b)) -> (forall b, profile_free (variance b)) ->
  forall masses prof0 missing wrong op cfg x0, lg_setup masses prof0 missing wrong op = Ok (cfg, x0) ->
  forall logT b i o m, from_nothing dset mset -> lc_mead cfg = Some m ->
  (m = Feedback -> block_num b "halo_model_parameters" "logT_AGN" = Ok logT) ->
  lg_read astro cfg b = Ok i ->
  snd (lg_execute dset mset astro growth root sigma8 variance rd cfg x0 b) = Ok o ->
  growing (growth (li_cosmo i)) -> root_law root (growth (li_cosmo i)) -> (forall x M, 0 < variance b x M) ->
  let H := as_class cfg x0 growth logT i in
  exists cs, acc_cen H dset mset (sigma8 b) prof0 (fun x => x) = Ok cs /\ List.length cs = List.length (lc_z cfg) /\
  forall j k x, nth_error cs j = Some x -> (k < List.length (lc_mass cfg))%nat -> 0 <= nth j (lc_z cfg) 0 <= 999 ->
  let seed := variance b x (1/100 * nth k (lc_mass cfg) 0) in
  let c := nth k (nth j (out_c_cen o) []) 0 in let c' := nth k (nth j (out_c_sat o) []) 0 in
  (0 < K H (nth j (lc_z cfg) 0) -> K H (nth j (lc_z cfg) 0) <= c /\ (c = K H (nth j (lc_z cfg) 0) <-> seed <= hp_delta_c x)) /\
  (0 < li_norm_sat i -> li_norm_sat i <= c' /\ (c' = li_norm_sat i <-> seed <= hp_delta_c x)).
Proof.
  intros dset mset astro growth root sigma8 variance rd L1 L2 L3 L4 masses prof0 missing wrong op cfg x0 SE logT b i o m
    F Hm HT Hi E HG HR HP H.
  destruct (C134_corrected dset mset astro growth root sigma8 variance rd L1 L2 L3 L4 masses prof0 missing wrong op cfg x0 SE logT b i o m F Hm HT Hi E)
    as (cs & A & L & N).
  exists cs. split; [exact A|]. split; [exact L|]. intros j k x Ex Hk Hz seed c c'.
  destruct (N j x Ex) as (y & y' & _ & _ & _ & _ & _ & _ & _ & _ & _ & _ & _ & _ & _ & _ & _ & _ & C).
  destruct (C k Hk) as (zf & Cz & Cc & Cs). unfold c, c', seed. rewrite Cc, Cs.
  split; intros Hn; exact (conc_at_least _ _ _ _ _ _ _ _ HG HR Hz (HP x _) Cz Hn).
Qed.
Print Assumptions C134_concentrations_at_least.

Example C134_case : from_nothing dset_merge ex_mset /\ from_nothing dset_replace ex_mset /\ (forall b k, population (toy_reads b k)) /\
  (forall use, exists cfg x0, lg_setup toy_masses [] "missing" "wrong" (toy_options use) = Ok (cfg, x0) /\
     lc_mead cfg = lg_correction use /\ (forall z, In z (lc_z cfg) -> 0 <= z <= 999) /\
     forall ns es, exists i o, lg_read toy_astro cfg (toy_block ns es) = Ok i /\ li_eta_sat i = es /\ li_norm_sat i = ns /\
       snd (toy_exec cfg x0 (toy_block ns es)) = Ok o /\
       block_num (toy_block ns es) "halo_model_parameters" "logT_AGN" = Ok (78/10)) /\
  growing (fun a => a) /\ root_law ex_root (fun a => a) /\
  co_w ex_eds = cpl_w (-1) 0 /\ co_de ex_eds = cpl_de (-1) 0 /\ lg_X (1/2) (-1) 0 = 1.
Proof.
  split; [exact toy_nothing|]. split; [split; [reflexivity|exact (proj2 toy_nothing)]|]. split; [exact toy_population|]. split.
  - intros use. destruct (toy_set use) as (cfg & x0 & E & A1 & A2 & A3 & A4 & A5).
    exists cfg, x0. split; [exact E|]. split; [exact A1|]. split.
    { intros z Iz. rewrite A2 in Iz. destruct Iz as [<-|[<-|[]]]; unfold linspace; cbn; lra. }
    intros ns es. destruct (toy_read cfg ns es A4 A5) as (i & Hi & _ & B1 & B2 & _).
    destruct (toy_runs use ns es cfg x0 E) as [o Ho]. exists i, o. repeat split; assumption.
  - split; [exact ex_growing|]. split; [exact ex_root_law|]. split; [reflexivity|]. split; [reflexivity|].
    unfold lg_X. rewrite BaseFacts.fpow_pos by lra. replace (-3 * (1 + -1 + 0)) with 0 by ring.
    replace (-3 * 0 * (1 - 1/2)) with 0 by ring. rewrite exp_0, Rpower_O by lra. ring.
Qed.
