(** Proofs about the option reading: every entry of the configuration. *)
From Coq Require Import ZArith.
From Verif Require Import Base Spec Interp HodModel HodSpec PkModel AddModel PipeModel PipeFacts OptModel OptSpec BaseFacts OptFacts OptFacts2 OptFacts3 OptFacts4.
Open Scope string_scope.

Section Config.
  Variables (missing wrong : string) (o : options).
  Ltac inv_binds H := repeat match type of H with
    | bind ?r _ = Ok _ => let E := fresh "E" in destruct r eqn:E; [cbn [bind] in H|discriminate H] end.
  Lemma val_text n d x : get_string missing wrong o n (Some d) = Ok x -> x = text (o n) d.
  Proof. unfold get_string, text, absent. destruct (o n) as [[]|]; intros E; try discriminate E; injection E as <-; reflexivity. Qed.
  Lemma val_text0 n x : get_string missing wrong o n None = Ok x -> o n = Some (OStr x).
  Proof. unfold get_string, absent. destruct (o n) as [[]|]; intros E; try discriminate E; injection E as <-; reflexivity. Qed.
  Lemma val_numbers n x : get_array missing o n = Ok x -> x = numbers (o n).
  Proof. unfold get_array, numbers. destruct (o n) as [[]|]; intros E; try discriminate E; injection E as <-; reflexivity. Qed.
  Lemma val_count n x : get_count missing o n = Ok x -> x = count (o n).
  Proof.
    unfold get_count, count. destruct (o n) as [[]|]; intros E; try discriminate E.
    match type of E with (if ?b then _ else _) = _ => destruct b end; [discriminate E|]. injection E as <-. reflexivity.
  Qed.
  Lemma val_optional n d x : string_or_none missing wrong o n d = Ok x -> x = optional (o n) d.
  Proof.
    unfold string_or_none, optional. destruct (o n) as [[]|]; intros E; try discriminate E; try (injection E as <-; reflexivity).
    destruct d; [injection E as <-; reflexivity|]. destruct (String.eqb missing "ValueError"); [injection E as <-; reflexivity|discriminate E].
  Qed.
  Lemma lower_empty s : String.eqb (lower s) "" = String.eqb s "".
  Proof. destruct s; reflexivity. Qed.
  Lemma val_pop n x : read_pop missing wrong o n = Ok x -> x = population (text (o n) "").
  Proof.
    unfold read_pop. intros E. destruct (get_string missing wrong o n (Some "")) as [s|] eqn:Es; [|discriminate E]. cbn [bind] in E.
    apply val_text in Es. subst s. injection E as <-. unfold population. rewrite lower_empty.
    destruct (String.eqb (text (o n) "") ""); reflexivity.
  Qed.
  Lemma val_sample suf d : read_settings missing wrong o suf = Ok d -> sample_is o suf d.
  Proof.
    unfold read_settings. intros E.
    match type of E with bind ?r _ = _ => destruct r as [[[f p] n]|] eqn:E1; [cbn [bind] in E|discriminate E] end.
    inv_binds E. apply val_count in E0. apply val_text in E2. subst. unfold has_value in E1.
    destruct (o ("observables_file_" ++ suf)) as [v|] eqn:Ef.
    - destruct (get_string missing wrong o ("observables_file_" ++ suf) None) as [s|] eqn:Es; [|discriminate E1]. cbn [bind] in E1.
      apply val_text0 in Es. rewrite Ef in Es. injection Es as ->. injection E1 as <- <- <-. injection E as <-.
      split; [intros g Hg; rewrite Ef in Hg; injection Hg as <-; reflexivity|]. split; [intros C; rewrite Ef in C; discriminate C|]. split; reflexivity.
    - inv_binds E1. injection E1 as <- <- <-. injection E as <-.
      repeat match goal with H : get_array _ _ _ = Ok _ |- _ => apply val_numbers in H | H : get_count _ _ _ = Ok _ |- _ => apply val_count in H end. subst.
      split; [intros g Hg; rewrite Ef in Hg; discriminate Hg|]. split; [intros _; repeat split|]. split; reflexivity.
  Qed.

  Variables (darkemu : bool) (m : module_config).
  Hypothesis H : setup missing wrong o darkemu = Ok m.
  Let c := config_of m.
  Lemma config_request :
    g_mode c = mode_name (optional (o "nonlinear_mode") None) /\ g_poisson c = text (o "poisson_type") "" /\
    q_k1 (m_request m) = optional (o "one_halo_ktrunc") (Some (1/10)) /\ q_k2 (m_request m) = optional (o "two_halo_ktrunc") (Some 2) /\
    q_k1_ia (m_request m) = optional (o "one_halo_ktrunc_ia") (Some 4) /\ q_k2_ia (m_request m) = optional (o "two_halo_ktrunc_ia") (Some 6) /\
    q_ingr (m_request m) = optional (o "hmcode_ingredients") None /\
    (q_dewiggle (m_request m) = true <-> flag o "dewiggle") /\ (q_pointmass (m_request m) = true <-> flag o "point_mass").
  Proof.
    destruct (setup_parts _ _ _ _ _ H) as (E & _ & _). unfold c, config_of. cbn [g_mode g_poisson].
    unfold setup_pipeline_parameters in E. inv_binds E. injection E as <-. cbn [q_mode q_poisson q_k1 q_k2 q_k1_ia q_k2_ia q_ingr q_dewiggle q_pointmass].
    repeat match goal with
      | H : string_or_none _ _ _ _ _ = Ok _ |- _ => apply val_optional in H
      | H : get_string _ _ _ _ _ = Ok _ |- _ => apply val_text in H
      | H : get_bool _ _ _ _ _ = Ok _ |- _ => apply val_flag in H
      end. subst. repeat (split; [reflexivity|]). split; assumption.
  Qed.
  Lemma config_ingredients : let h := m_hmf m in
    h_profile_cen h = text (o "profile_cen") "NFW" /\ h_profile_sat h = text (o "profile_sat") "NFW" /\
    h_profile_value h = text (o "profile_value_name") "profile_parameters" /\ h_hmf h = text (o "hmf_model") "Tinker10" /\
    h_mdef h = text (o "mdef_model") "SOMean" /\ h_overdensity h = num (o "overdensity") 200 /\
    h_cm_cen h = text (o "cm_model_cen") "Duffy08" /\ h_cm_sat h = text (o "cm_model_sat") "Duffy08" /\
    h_delta_c h = num (o "delta_c") (1686/1000) /\ h_bias h = text (o "bias_model") "Tinker10".
  Proof.
    destruct (setup_parts _ _ _ _ _ H) as (_ & E & _). cbv zeta. unfold setup_hmf_config in E. inv_binds E. injection E as <-.
    cbn [h_profile_cen h_profile_sat h_profile_value h_hmf h_mdef h_overdensity h_cm_cen h_cm_sat h_delta_c h_bias].
    repeat match goal with
      | H : get_double _ _ _ _ _ = Ok _ |- _ => apply val_num in H
      | H : get_string _ _ _ _ _ = Ok _ |- _ => apply val_text in H
      end. subst. repeat split.
  Qed.
  Lemma config_hod :
    g_hod_model c = text (o "hod_model") "Cacciato" /\ g_hod_section c = text (o "hod_section_name") "hod" /\
    g_hod_values c = lower (text (o "values_name") "hod_parameters") /\
    (g_save_obs c = true <-> flag o "save_observable") /\
    (flag o "save_observable" -> g_obs_section c = lower (text (o "observable_section_name") "stellar_mass_function") /\ sample_is o "smf" (g_obs c)) /\
    (wants_galaxies o -> sample_is o "hod" (g_settings c)) /\
    (wants_alignment o ->
       g_central c = text (o "central_IA_depends_on") "halo_mass" /\ g_satellite c = text (o "satellite_IA_depends_on") "halo_mass" /\
       (flag o "split_ia" ->
          o "hod_section_name_ia_1" = Some (OStr (g_hod_section_ia c)) /\
          g_pop1 c = population (text (o "output_suffix_ia_1") "") /\ g_pop2 c = population (text (o "output_suffix_ia_2") "") /\
          sample_is o "ia_1" (g_ia_1 c) /\ sample_is o "ia_2" (g_ia_2 c)) /\
       (~ flag o "split_ia" ->
          o "hod_section_name_ia" = Some (OStr (g_hod_section_ia c)) /\
          g_pop1 c = population (text (o "output_suffix_ia") "") /\ sample_is o "ia" (g_ia_1 c))) /\
    (o "nonlinear_mode" = Some (OStr "bnl") -> exists z, o "update_bnl" = Some (OInt z) /\ g_update_bnl c = Z.abs_nat z).
  Proof.
    destruct (setup_parts _ _ _ _ _ H) as (Eq & _ & E). pose proof (request_flags _ _ _ _ Eq) as F.
    pose proof (request_galaxy _ _ F) as G. pose proof (request_alignment _ _ F) as Al. pose proof (request_mode _ _ _ _ Eq) as Mo.
    destruct F as (_ & _ & _ & _ & _ & _ & _ & Sp & _).
    assert (U : read_update missing o darkemu (mode_name (q_mode (m_request m))) = Ok (m_update m)).
    { revert H. unfold setup. intros Q. inv_binds Q. injection Q as <-. cbn [m_request m_update]. assumption. }
    unfold c, config_of. cbn [g_hod_model g_hod_section g_hod_values g_save_obs g_obs_section g_obs g_settings g_central g_satellite g_hod_section_ia g_pop1 g_pop2 g_ia_1 g_ia_2 g_update_bnl].
    unfold setup_hod in E. inv_binds E. injection E as <-.
    cbn [d_section d_values d_pop d_names d_model d_settings d_ia_1 d_ia_2 d_obs d_save d_obs_section].
    repeat match goal with
      | H : get_string _ _ _ _ _ = Ok _ |- _ => apply val_text in H
      | H : get_bool _ _ _ _ _ = Ok _ |- _ => apply val_flag in H
      end. subst.
    split; [reflexivity|]. split; [reflexivity|]. split; [reflexivity|]. split; [assumption|].
    split; [|split; [|split]].
    - intros S. match goal with Hf : (?b = true <-> flag o "save_observable") |- _ => apply Hf in S; subst b end.
      match goal with Hs : bind (read_settings _ _ _ "smf") _ = Ok _ |- _ => rename Hs into HS end. inv_binds HS. injection HS as <-. cbn [fst snd].
      match goal with Hs : get_string _ _ _ "observable_section_name" _ = Ok _ |- _ => apply val_text in Hs; subst end.
      split; [reflexivity|]. apply val_sample. assumption.
    - intros W. apply G in W. rewrite W in *.
      match goal with Hs : bind (read_settings _ _ _ "hod") _ = Ok _ |- _ => rename Hs into HS end.
      destruct (read_settings missing wrong o "hod") as [d|] eqn:Ed; [cbn [bind] in HS|discriminate HS].
      destruct (setup_hod_galaxy d) as [[[h mm] n]|] eqn:Eg; [cbn [bind] in HS|discriminate HS]. injection HS as <-. cbn [fst snd].
      replace (hget h 0) with d; [apply val_sample; exact Ed|].
      unfold setup_hod_galaxy in Eg. destruct (setup_hod_settings_mm [d] 0) as [[h' mm']|] eqn:Em; [cbn [bind fst snd] in Eg|discriminate Eg].
      destruct (get_arr (hget h' 0) "obs_min"); [|discriminate Eg]. injection Eg as <- <- <-.
      symmetry. destruct (settings_mm_spec [d] 0 h' mm' ltac:(cbn; lia) Em) as (K & _). exact (K 0%nat ltac:(cbn; lia)).
    - intros W. apply Al in W. rewrite W in *.
      match goal with Hs : read_ia_names _ _ _ true _ = Ok ?x |- _ => rename Hs into HN end. unfold read_ia_names in HN. inv_binds HN.
      match goal with Hs : (if q_split _ then bind (read_settings _ _ _ "ia_1") _ else _) = Ok _ |- _ => rename Hs into HS end.
      repeat match goal with Hs : get_string _ _ _ _ (Some _) = Ok _ |- _ => apply val_text in Hs end. subst.
      destruct (q_split (m_request m)).
      + inv_binds HN. injection HN as <-. inv_binds HS. injection HS as <-. cbn [n_central n_satellite n_sec1 n_pop1 n_pop2 fst snd].
        repeat match goal with
          | Hs : read_pop _ _ _ _ = Ok _ |- _ => apply val_pop in Hs | Hs : get_string _ _ _ _ None = Ok _ |- _ => apply val_text0 in Hs
          | Hs : read_settings _ _ _ _ = Ok _ |- _ => apply val_sample in Hs end. subst.
        split; [reflexivity|]. split; [reflexivity|]. split.
        * intros _. repeat (split; [first [assumption|reflexivity]|]). assumption.
        * intros N. exfalso. apply N, Sp. reflexivity.
      + inv_binds HN. injection HN as <-. inv_binds HS. injection HS as <-. cbn [n_central n_satellite n_sec1 n_pop1 n_pop2 fst snd].
        repeat match goal with
          | Hs : read_pop _ _ _ _ = Ok _ |- _ => apply val_pop in Hs | Hs : get_string _ _ _ _ None = Ok _ |- _ => apply val_text0 in Hs
          | Hs : read_settings _ _ _ _ = Ok _ |- _ => apply val_sample in Hs end. subst.
        split; [reflexivity|]. split; [reflexivity|]. split.
        * intros Y. apply Sp in Y. discriminate Y.
        * intros _. repeat (split; [first [assumption|reflexivity]|]). assumption.
    - intros B. apply Mo in B. rewrite B in U. unfold read_update in U. cbn in U. destruct darkemu; [|discriminate U].
      destruct (o "update_bnl") as [[z| | | |]|]; try discriminate U. injection U as U. exists z. split; [reflexivity|]. symmetry. exact U.
  Qed.
End Config.

(** ** Names that are read and not used *)
Section Unused.
  Variables (missing wrong : string) (o : options) (d : bool) (n s : string).
  Hypothesis Hn : In n unused.
  Let o' := oset o n (OStr s).
  Ltac cases := destruct Hn as [E|[E|[]]]; unfold o'; rewrite <- E; reflexivity.
  Ltac step := match goal with
    | |- context [bind ?r _] => let E := fresh "E" in destruct r eqn:E; cbn [bind]; [|intros C; discriminate C] end.
  Lemma un_req : setup_pipeline_parameters missing wrong o' = setup_pipeline_parameters missing wrong o.
  Proof. cases. Qed.
  Lemma un_hmf : setup_hmf_config missing wrong o' = setup_hmf_config missing wrong o.
  Proof. cases. Qed.
  Lemma un_update mode : read_update missing o' d mode = read_update missing o d mode.
  Proof. cases. Qed.
  Lemma un_settings suf : In suf ["hod"; "ia"; "ia_1"; "ia_2"; "smf"] -> read_settings missing wrong o' suf = read_settings missing wrong o suf.
  Proof. intros [<-|[<-|[<-|[<-|[<-|[]]]]]]; cases. Qed.
  Lemma un_string m x : In m ["hod_section_name"; "values_name"; "hod_model"; "observable_section_name"] ->
    get_string missing wrong o' m x = get_string missing wrong o m x.
  Proof. intros [<-|[<-|[<-|[<-|[]]]]]; cases. Qed.
  Lemma un_save : get_bool missing wrong o' "save_observable" (Some false) = get_bool missing wrong o "save_observable" (Some false).
  Proof. cases. Qed.
  Lemma un_pop p : read_pop missing wrong o "output_suffix" = Ok p -> exists p', read_pop missing wrong o' "output_suffix" = Ok p'.
  Proof.
    destruct Hn as [E|[E|[]]]; unfold o'; rewrite <- E; [intros _; eexists; reflexivity|].
    intros Q. exists p. exact Q.
  Qed.
  Lemma un_names al sp x : read_ia_names missing wrong o al sp = Ok x -> exists y, read_ia_names missing wrong o' al sp = Ok y /\
    n_central y = n_central x /\ n_satellite y = n_satellite x /\ n_sec1 y = n_sec1 x /\ n_pop1 y = n_pop1 x /\ n_pop2 y = n_pop2 x.
  Proof.
    destruct Hn as [E|[E|[]]]; unfold o'; rewrite <- E.
    { intros Q. exists x. split; [exact Q|]. repeat split. }
    unfold read_ia_names. destruct al; [|intros Q; injection Q as <-; eexists; split; [reflexivity|]; repeat split].
    change (get_string missing wrong (oset o "hod_section_name_ia_2" (OStr s)) "central_IA_depends_on" (Some "halo_mass")) with
      (get_string missing wrong o "central_IA_depends_on" (Some "halo_mass")).
    change (get_string missing wrong (oset o "hod_section_name_ia_2" (OStr s)) "satellite_IA_depends_on" (Some "halo_mass")) with
      (get_string missing wrong o "satellite_IA_depends_on" (Some "halo_mass")).
    step. step. destruct sp.
    - change (get_string missing wrong (oset o "hod_section_name_ia_2" (OStr s)) "hod_section_name_ia_1" None) with (get_string missing wrong o "hod_section_name_ia_1" None).
      change (read_pop missing wrong (oset o "hod_section_name_ia_2" (OStr s)) "output_suffix_ia_1") with (read_pop missing wrong o "output_suffix_ia_1").
      change (read_pop missing wrong (oset o "hod_section_name_ia_2" (OStr s)) "output_suffix_ia_2") with (read_pop missing wrong o "output_suffix_ia_2").
      step. step. change (get_string missing wrong (oset o "hod_section_name_ia_2" (OStr s)) "hod_section_name_ia_2" None) with (@Ok string s). cbn [bind].
      destruct (get_string missing wrong o "hod_section_name_ia_2" None); cbn [bind]; [|intros C; discriminate C].
      step. intros Q. injection Q as <-. eexists. split; [reflexivity|]. repeat split.
    - change (get_string missing wrong (oset o "hod_section_name_ia_2" (OStr s)) "hod_section_name_ia" None) with (get_string missing wrong o "hod_section_name_ia" None).
      change (read_pop missing wrong (oset o "hod_section_name_ia_2" (OStr s)) "output_suffix_ia") with (read_pop missing wrong o "output_suffix_ia").
      step. step. intros Q. injection Q as <-. eexists. split; [reflexivity|]. repeat split.
  Qed.
  Lemma unused_setup m : setup missing wrong o d = Ok m -> exists m', setup missing wrong o' d = Ok m' /\
    config_of m' = config_of m /\ m_request m' = m_request m /\ m_hmf m' = m_hmf m.
  Proof.
    unfold setup. rewrite un_req. step. unfold setup_hod.
    rewrite !(un_string "hod_section_name"), !(un_string "values_name"), !(un_string "hod_model"), !(un_string "observable_section_name") by (simpl; tauto).
    rewrite !(un_settings "hod"), !(un_settings "ia"), !(un_settings "ia_1"), !(un_settings "ia_2"), !(un_settings "smf") by (simpl; tauto).
    rewrite un_save, un_hmf, un_update.
    destruct (get_string missing wrong o "hod_section_name" (Some "hod")) as [sec|]; cbn [bind]; [|intros C; discriminate C].
    destruct (get_string missing wrong o "values_name" (Some "hod_parameters")) as [vals|]; cbn [bind]; [|intros C; discriminate C].
    destruct (read_pop missing wrong o "output_suffix") as [p|] eqn:Ep; cbn [bind]; [|intros C; discriminate C].
    destruct (un_pop _ Ep) as (p' & ->). cbn [bind].
    match goal with |- context [read_ia_names missing wrong o ?al ?sp] => destruct (read_ia_names missing wrong o al sp) as [x|] eqn:Ex end; cbn [bind]; [|intros C; discriminate C].
    destruct (un_names _ _ _ Ex) as (y & -> & Y1 & Y2 & Y3 & Y4 & Y5). cbn [bind].
    repeat match goal with |- bind (bind ?r _) _ = _ -> _ => destruct r; cbn [bind]; [|intros C; discriminate C] end.
    match goal with |- bind ?r _ = _ -> _ => destruct r; cbn [bind]; [|intros C; discriminate C] end.
    match goal with |- bind ?r _ = _ -> _ => destruct r; cbn [bind]; [|intros C; discriminate C] end.
    intros Q. injection Q as <-. eexists. split; [reflexivity|]. cbn [m_request m_hmf].
    split; [|split; reflexivity]. unfold config_of. cbn [m_request m_hod m_update d_names d_model d_settings d_ia_1 d_ia_2 d_obs d_save d_section d_values d_obs_section d_nbins].
    rewrite Y1, Y2, Y3, Y4, Y5. reflexivity.
  Qed.
End Unused.

Lemma example_unused : exists m m', setup "ValueError" "x" example_ini true = Ok m /\
  setup "ValueError" "x" (oset example_ini "output_suffix" (OStr "Red")) true = Ok m' /\
  d_pop (m_hod m) = "" /\ d_pop (m_hod m') = "_red" /\ config_of m' = config_of m.
Proof. eexists. eexists. split; [vm_compute; reflexivity|]. split; [vm_compute; reflexivity|]. vm_compute. repeat split. Qed.
Lemma example_samples : exists m, setup "ValueError" "x" example_ini true = Ok m /\
  dget (g_settings (config_of m)) "nobs" = Some (SNum (count (example_ini "nobs_hod"))) /\ g_hod_values (config_of m) = "hod_parameters" /\
  g_pop1 (config_of m) = "_ia_red" /\ g_pop2 (config_of m) = "_ia_blue".
Proof. eexists. split; [vm_compute; reflexivity|]. vm_compute. repeat split. Qed.
