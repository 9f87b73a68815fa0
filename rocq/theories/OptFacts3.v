(** Proofs about the option reading: the whole of setup. *)
From Coq Require Import ZArith.
From Verif Require Import Base Spec Interp HodModel HodSpec PkModel AddModel PipeModel OptModel OptSpec BaseFacts QuadFacts OptFacts OptFacts2.
Open Scope string_scope.

Section Setup.
  Variables (missing wrong : string) (o : options).
  Ltac inv_binds H := repeat match type of H with
    | bind ?r _ = Ok _ => let E := fresh "E" in destruct r eqn:E; [cbn [bind] in H|discriminate H] end.

  Definition names_ok (al sp : bool) : Prop :=
    if al then typed o ("central_IA_depends_on", KString) /\ typed o ("satellite_IA_depends_on", KString) /\
      if sp then given o ("hod_section_name_ia_1", KString) /\ typed o ("output_suffix_ia_1", KString) /\
                 given o ("hod_section_name_ia_2", KString) /\ typed o ("output_suffix_ia_2", KString) /\ True
      else given o ("hod_section_name_ia", KString) /\ typed o ("output_suffix_ia", KString) /\ True
    else True.
  Lemma s_names al sp : succeeds (read_ia_names missing wrong o al sp) <-> names_ok al sp.
  Proof.
    unfold read_ia_names, names_ok. destruct al; [|apply done].
    do 2 (apply (chain _ _ _ _ (ss _ _ _ _ _)); intros _ ? _). destruct sp.
    - apply (chain _ _ _ _ (ss_req _ _ _ _)); intros _ ? _. apply (chain _ _ _ _ (OptFacts2.sp _ _ _ _)); intros _ ? _.
      apply (chain _ _ _ _ (ss_req _ _ _ _)); intros _ ? _. apply (chain _ _ _ _ (OptFacts2.sp _ _ _ _)); intros _ ? _. apply done.
    - apply (chain _ _ _ _ (ss_req _ _ _ _)); intros _ ? _. apply (chain _ _ _ _ (OptFacts2.sp _ _ _ _)); intros _ ? _. apply done.
  Qed.
  Definition samples_ok (al sp : bool) : Prop :=
    if al then if sp then sample_given o "ia_1" /\ sample_given o "ia_2" /\ True else sample_given o "ia" /\ True else True.
  Definition obs_ok : Prop :=
    flag o "save_observable" -> sample_given o "smf" /\ typed o ("observable_section_name", KString).
  Lemma s_hod g al sp : succeeds (setup_hod missing wrong o g al sp) <->
    typed o ("hod_section_name", KString) /\ typed o ("values_name", KString) /\ typed o ("output_suffix", KString) /\
    names_ok al sp /\ typed o ("hod_model", KString) /\ (if g then limits_given o "hod" else True) /\ samples_ok al sp /\
    typed o ("save_observable", KBool) /\ obs_ok /\ True.
  Proof.
    unfold setup_hod. do 2 (apply (chain _ _ _ _ (ss _ _ _ _ _)); intros _ ? _).
    apply (chain _ _ _ _ (OptFacts2.sp _ _ _ _)); intros _ ? _. apply (chain _ _ _ _ (s_names _ _)); intros _ ? _.
    apply (chain _ _ _ _ (ss _ _ _ _ _)); intros _ ? _.
    apply (chain _ _ _ _).
    { destruct g; [apply s_galaxy|apply done]. }
    intros _ ? _. apply (chain _ _ _ _).
    { unfold samples_ok. destruct al; [|apply done]. destruct sp.
      - do 2 (apply (chain _ _ _ _ (s_settings _ _ _ _)); intros _ ? _). apply done.
      - apply (chain _ _ _ _ (s_settings _ _ _ _)); intros _ ? _. apply done. }
    intros _ ? _. apply (chain _ _ _ _ (sb _ _ _ _ _)). intros _ save Es. apply (chain _ _ _ _).
    { unfold obs_ok. apply val_flag in Es. destruct save.
      - transitivity (sample_given o "smf" /\ typed o ("observable_section_name", KString) /\ True); [|tauto].
        apply (chain _ _ _ _ (s_settings _ _ _ _)); intros _ ? _. apply (chain _ _ _ _ (ss _ _ _ _ _)); intros _ ? _. apply done.
      - split; [intros _ F; apply Es in F; discriminate F|intros _; eexists; reflexivity]. }
    intros _ ? _. apply done.
  Qed.
  Lemma s_update darkemu mode : succeeds (read_update missing o darkemu mode) <->
    (mode = Some "bnl" -> darkemu = true /\ given o ("update_bnl", KInt)).
  Proof.
    unfold read_update. destruct mode as [m|]; [|split; [intros _ C; discriminate C|intros _; eexists; reflexivity]].
    destruct (String.eqb m "bnl") eqn:E.
    - apply String.eqb_eq in E. subst m. unfold given, of_kind. cbn [fst snd].
      destruct darkemu; [|split; [intros [v C]; discriminate C|intros C; destruct (C eq_refl); discriminate]].
      destruct (o "update_bnl") as [[z|x|b|s|l]|]; split; intros H;
        try (destruct H; discriminate); try (eexists; reflexivity); try (destruct (H eq_refl) as (_ & v & E & K); injection E as <-; destruct K; fail);
        try (destruct (H eq_refl) as (_ & v & E & K); discriminate E).
      intros _. split; [reflexivity|]. eexists. split; [reflexivity|exact I].
    - apply String.eqb_neq in E. split; [intros _ C; congruence|intros _; eexists; reflexivity].
  Qed.

  Lemma setup_iff darkemu : succeeds (setup missing wrong o darkemu) <-> usable missing darkemu o.
  Proof.
    unfold setup. rewrite ok_bind. unfold usable.
    assert (A : Forall (typed o) always_read <-> Forall (typed o) (firstn 17 always_read) /\
      (typed o ("hod_section_name", KString) /\ typed o ("values_name", KString) /\ typed o ("output_suffix", KString) /\
       typed o ("hod_model", KString) /\ typed o ("save_observable", KBool)) /\ Forall (typed o) (skipn 22 always_read)).
    { unfold always_read. cbn [firstn skipn]. rewrite !Forall_cons_iff. pose proof (Forall_nil (typed o)). tauto. }
    assert (Main : forall q, setup_pipeline_parameters missing wrong o = Ok q ->
      (succeeds (bind (setup_hod missing wrong o (q_galaxy q) (q_alignment q) (q_split q)) (fun d =>
        bind (setup_hmf_config missing wrong o) (fun h => bind (read_update missing o darkemu (mode_name (q_mode q))) (fun u =>
        Ok {| m_request := q; m_hod := d; m_hmf := h; m_update := u |})))) <->
       (typed o ("hod_section_name", KString) /\ typed o ("values_name", KString) /\ typed o ("output_suffix", KString) /\
        names_ok (q_alignment q) (q_split q) /\ typed o ("hod_model", KString) /\ (if q_galaxy q then limits_given o "hod" else True) /\
        samples_ok (q_alignment q) (q_split q) /\ typed o ("save_observable", KBool) /\ obs_ok /\ True) /\
       (Forall (typed o) (skipn 22 always_read) /\ o "nmass" <> Some (OInt 0)) /\
       (mode_name (q_mode q) = Some "bnl" -> darkemu = true /\ given o ("update_bnl", KInt)) /\ True)).
    { intros q _. apply (chain _ _ _ _ (s_hod _ _ _)); intros _ ? _. apply (chain _ _ _ _ (s_hmf _ _ _)); intros _ ? _.
      apply (chain _ _ _ _ (s_update _ _)); intros _ ? _. apply done. }
    assert (Fl : forall q, setup_pipeline_parameters missing wrong o = Ok q ->
      ((names_ok (q_alignment q) (q_split q) /\ samples_ok (q_alignment q) (q_split q)) <->
       (wants_alignment o ->
          typed o ("central_IA_depends_on", KString) /\ typed o ("satellite_IA_depends_on", KString) /\
          (flag o "split_ia" -> given o ("hod_section_name_ia_1", KString) /\ given o ("hod_section_name_ia_2", KString) /\
             typed o ("output_suffix_ia_1", KString) /\ typed o ("output_suffix_ia_2", KString) /\
             sample_given o "ia_1" /\ sample_given o "ia_2") /\
          (~ flag o "split_ia" -> given o ("hod_section_name_ia", KString) /\ typed o ("output_suffix_ia", KString) /\
             sample_given o "ia"))) /\
      ((if q_galaxy q then limits_given o "hod" else True) <-> (wants_galaxies o -> limits_given o "hod")) /\
      (mode_name (q_mode q) = Some "bnl" <-> o "nonlinear_mode" = Some (OStr "bnl"))).
    { intros q E. pose proof (request_flags _ _ _ _ E) as F. pose proof (request_galaxy _ _ F) as G.
      pose proof (request_alignment _ _ F) as Al. pose proof (request_mode _ _ _ _ E) as Mo.
      destruct F as (_ & _ & _ & _ & _ & _ & _ & Sp & _). unfold names_ok, samples_ok.
      split; [|split; [|exact Mo]].
      - destruct (q_alignment q).
        + assert (W : wants_alignment o) by (apply Al; reflexivity). destruct (q_split q).
          * assert (flag o "split_ia") by (apply Sp; reflexivity). tauto.
          * assert (~ flag o "split_ia") by (intros C; apply Sp in C; discriminate C). tauto.
        + assert (W : ~ wants_alignment o) by (intros C; apply Al in C; discriminate C). tauto.
      - destruct (q_galaxy q).
        + assert (W : wants_galaxies o) by (apply G; reflexivity). tauto.
        + assert (W : ~ wants_galaxies o) by (intros C; apply G in C; discriminate C). tauto. }
    split.
    - intros (q & E & S). apply (Main q E) in S. destruct (Fl q E) as (F1 & F2 & F3).
      assert (R : succeeds (setup_pipeline_parameters missing wrong o)) by (exists q; exact E). apply s_request in R.
      unfold obs_ok in S. tauto.
    - intros (T & N & Mi & G & Al & Ob & Bn).
      assert (R : succeeds (setup_pipeline_parameters missing wrong o)) by (apply s_request; tauto).
      destruct R as [q E]. exists q. split; [exact E|]. apply (Main q E). destruct (Fl q E) as (F1 & F2 & F3). unfold obs_ok. tauto.
  Qed.

  (** ** What setup returns *)
  Lemma setup_parts darkemu m : setup missing wrong o darkemu = Ok m ->
    setup_pipeline_parameters missing wrong o = Ok (m_request m) /\ setup_hmf_config missing wrong o = Ok (m_hmf m) /\
    setup_hod missing wrong o (q_galaxy (m_request m)) (q_alignment (m_request m)) (q_split (m_request m)) = Ok (m_hod m).
  Proof. unfold setup. intros H. inv_binds H. injection H as <-. cbn [m_request m_hmf m_hod]. repeat split; assumption. Qed.
  Lemma setup_flags darkemu m : setup missing wrong o darkemu = Ok m ->
    let c := config_of m in
    (g_mm c = true <-> flag o "p_mm") /\ (g_gg c = true <-> flag o "p_gg") /\ (g_gm c = true <-> flag o "p_gm") /\
    (g_gI c = true <-> flag o "p_gI") /\ (g_mI c = true <-> flag o "p_mI") /\ (g_II c = true <-> flag o "p_II") /\
    (g_response c = true <-> flag o "response") /\ (g_split c = true <-> flag o "split_ia") /\
    (galaxy c = true <-> wants_galaxies o) /\ (alignment c = true <-> wants_alignment o).
  Proof.
    intros H. destruct (setup_parts _ _ H) as (E & _ & _). pose proof (request_flags _ _ _ _ E) as F.
    pose proof (request_galaxy _ _ F) as G. pose proof (request_alignment _ _ F) as Al.
    destruct F as (F1 & F2 & F3 & F4 & F5 & F6 & F7 & F8 & _). cbn. repeat (split; [assumption|]). assumption.
  Qed.
  (** The bins are those of the limits given. *)
  Lemma setup_bins darkemu m l : setup missing wrong o darkemu = Ok m -> wants_galaxies o ->
    o "log10_obs_min_hod" = Some (OArr l) -> g_nbins (config_of m) = List.length l.
  Proof.
    intros H W El. destruct (setup_parts _ _ H) as (E & _ & D). pose proof (request_flags _ _ _ _ E) as F.
    pose proof (proj2 (request_galaxy _ _ F) W) as G. rewrite G in D. cbn [config_of g_nbins].
    unfold setup_hod in D. inv_binds D. injection D as <-. cbn [d_nbins].
    match goal with E0 : bind (read_settings _ _ _ "hod") _ = Ok _ |- _ => rename E0 into ES end.
    destruct (read_settings missing wrong o "hod") as [d|] eqn:ER; [cbn [bind] in ES|discriminate ES].
    assert (L : limits_given o "hod").
    { apply (s_galaxy missing wrong). rewrite ER. cbn [bind]. eexists. exact ES. }
    destruct L as (Eo & _). unfold read_settings, has_value in ER. rewrite Eo in ER. cbv iota beta in ER. inv_binds ER.
    match goal with E0 : bind (get_array _ _ _) _ = Ok ?p |- _ => rename E0 into EB end. inv_binds EB. injection EB as <-. injection ER as <-.
    match goal with E0 : get_array _ _ ("log10_obs_min_" ++ "hod") = Ok ?x |- _ => change ("log10_obs_min_" ++ "hod") with "log10_obs_min_hod" in E0;
      unfold get_array in E0; rewrite El in E0; injection E0 as E0; subst x end.
    match type of ES with bind ?x _ = _ => destruct x as [[[h mm] n]|] eqn:EG; [|discriminate ES] end.
    cbn [bind] in ES. injection ES as <-. cbn [snd].
    unfold setup_hod_galaxy in EG. match type of EG with bind ?x _ = _ => destruct x as [[h' mm']|] eqn:EM; [|discriminate EG] end.
    cbn [bind fst snd] in EG.
    match type of EM with setup_hod_settings_mm [setup_hod_settings None ?a ?b ?c ?d ?e ?f ?g] 0 = _ =>
      destruct a; [discriminate EM|]; destruct b; [discriminate EM|];
      destruct c; [discriminate EM|]; destruct d; [discriminate EM|] end.
    injection EM as <- <-. cbn in EG. injection EG as <- <- <-. reflexivity.
  Qed.
End Setup.
