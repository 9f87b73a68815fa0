(** Proofs about the option reading: when it succeeds and what it returns. *)
From Coq Require Import ZArith.
From Verif Require Import Base Spec Interp HodModel PkModel AddModel PipeModel OptModel OptSpec BaseFacts OptFacts.
Open Scope string_scope.

Definition succeeds {A} (r : res A) : Prop := exists v, r = Ok v.
Lemma ok_bind {A B} (r : res A) (f : A -> res B) : succeeds (bind r f) <-> exists a, r = Ok a /\ succeeds (f a).
Proof.
  split.
  - intros [v H]. destruct r as [a|e]; [|discriminate H]. exists a. split; [reflexivity|]. exists v. exact H.
  - intros (a & -> & v & H). exists v. exact H.
Qed.
(** A chain of reads succeeds when every read does and the rest succeeds for the values read. *)
Lemma chain {A B} (r : res A) (f : A -> res B) (P Q : Prop) :
  (succeeds r <-> P) -> (P -> forall a, r = Ok a -> (succeeds (f a) <-> Q)) -> (succeeds (bind r f) <-> P /\ Q).
Proof.
  intros H1 H2. rewrite ok_bind. split.
  - intros (a & E & H). assert (HP : P) by (apply H1; exists a; exact E). split; [exact HP|]. apply (H2 HP a E), H.
  - intros [HP HQ]. destruct (proj2 H1 HP) as [a E]. exists a. split; [exact E|]. apply (H2 HP a E), HQ.
Qed.
Lemma done {A} (a : A) : succeeds (Ok a) <-> True.
Proof. split; [trivial|]. intros _. exists a. reflexivity. Qed.

Section Readers.
  Variables (missing wrong : string) (o : options).
  Lemma sb n d : succeeds (get_bool missing wrong o n (Some d)) <-> typed o (n, KBool).
  Proof.
    unfold get_bool, typed, succeeds, absent, of_kind. cbn [fst snd]. destruct (o n) as [[]|]; split; intros H; try exact I; try (eexists; reflexivity);
      try (destruct H; discriminate); destruct H.
  Qed.
  Lemma ss n d : succeeds (get_string missing wrong o n (Some d)) <-> typed o (n, KString).
  Proof.
    unfold get_string, typed, succeeds, absent, of_kind. cbn [fst snd]. destruct (o n) as [[]|]; split; intros H; try exact I; try (eexists; reflexivity);
      try (destruct H; discriminate); destruct H.
  Qed.
  Lemma ss_req n : succeeds (get_string missing wrong o n None) <-> given o (n, KString).
  Proof.
    unfold get_string, given, succeeds, absent, of_kind. cbn [fst snd].
    destruct (o n) as [[]|]; split; intros H; try (destruct H as [? H]; discriminate H); try (eexists; reflexivity);
      try (destruct H as (? & E & K); injection E as <-; destruct K); try (destruct H as (? & E & _); discriminate E).
    eexists. split; [reflexivity|exact I].
  Qed.
  Lemma sd n d : succeeds (get_double missing wrong o n (Some d)) <-> typed o (n, KDouble).
  Proof.
    unfold get_double, typed, succeeds, absent, of_kind. cbn [fst snd]. destruct (o n) as [[]|]; split; intros H; try exact I; try (eexists; reflexivity);
      try (destruct H; discriminate); destruct H.
  Qed.
  Lemma si n d : succeeds (get_int missing wrong o n (Some d)) <-> typed o (n, KInt).
  Proof.
    unfold get_int, typed, succeeds, absent, of_kind. cbn [fst snd]. destruct (o n) as [[]|]; split; intros H; try exact I; try (eexists; reflexivity);
      try (destruct H; discriminate); destruct H.
  Qed.
  Lemma so n d : succeeds (string_or_none missing wrong o n (Some d)) <-> typed o (n, KOptional).
  Proof.
    unfold string_or_none, typed, succeeds, absent, of_kind. cbn [fst snd]. destruct (o n) as [[]|]; split; intros H; try exact I; try (eexists; reflexivity);
      try (destruct H; discriminate); destruct H.
  Qed.
  Lemma so_none n : succeeds (string_or_none missing wrong o n None) <-> typed o (n, KOptional) /\ (missing = "ValueError" \/ o n <> None).
  Proof.
    unfold string_or_none, typed, succeeds, absent, of_kind. cbn [fst snd].
    destruct (o n) as [[]|]; split; intros H;
      try (split; [exact I|right; discriminate]); try (eexists; reflexivity); try (destruct H; discriminate); try (destruct H as [[] _]; fail).
    - destruct (String.eqb missing "ValueError") eqn:E; [|destruct H; discriminate]. apply String.eqb_eq in E. split; [exact I|left; exact E].
    - destruct H as [_ [-> |H]]; [|congruence]. eexists. reflexivity.
  Qed.
  Lemma sa n : succeeds (get_array missing o n) <-> nearly (n, KArray) o.
  Proof.
    unfold get_array, nearly, given, succeeds, of_kind. cbn [fst snd]. destruct (o n) as [v|]; split; intros H.
    - destruct v as [z|x|b|s|[|y l]]; try (destruct H; discriminate); try (left; eexists; split; [reflexivity|exact I]).
      right. split; reflexivity.
    - destruct v; try (eexists; reflexivity).
      destruct H as [(v & E & K)|[_ E]]; [injection E as <-; destruct K|discriminate E].
    - destruct H; discriminate.
    - destruct H as [(v & E & K)|[_ E]]; discriminate E.
  Qed.
  Lemma sc n : succeeds (get_count missing o n) <-> given o (n, KCount).
  Proof.
    unfold get_count, given, succeeds, of_kind. cbn [fst snd]. destruct (o n) as [v|]; split; intros H.
    - destruct v; try (destruct H; discriminate). destruct (Z.ltb z 0) eqn:E; [destruct H; discriminate|].
      apply Z.ltb_ge in E. eexists. split; [reflexivity|exact E].
    - destruct H as (w & E & K). injection E as <-. destruct v; try (destruct K; fail). destruct (Z.ltb z 0) eqn:E; [|eexists; reflexivity].
      apply Z.ltb_lt in E. lia.
    - destruct H; discriminate.
    - destruct H as (v & E & _); discriminate E.
  Qed.
  Lemma nearly_count n : nearly (n, KCount) o <-> given o (n, KCount).
  Proof. unfold nearly. cbn [snd]. split; [intros [H|[H _]]; [exact H|discriminate H]|intros H; left; exact H]. Qed.
  Lemma sp n : succeeds (read_pop missing wrong o n) <-> typed o (n, KString).
  Proof.
    unfold read_pop. rewrite (chain _ _ _ True (ss n "")); [tauto|]. intros _ a _. apply done.
  Qed.

  Lemma Forall5 {A} (P : A -> Prop) a b c d e : Forall P [a; b; c; d; e] <-> P a /\ P b /\ P c /\ P d /\ P e.
  Proof.
    split.
    - intros F. rewrite Forall_forall in F. repeat split; apply F; simpl; tauto.
    - intros (H1 & H2 & H3 & H4 & H5). repeat constructor; assumption.
  Qed.
  Lemma s_settings suf : succeeds (read_settings missing wrong o suf) <-> sample_given o suf.
  Proof.
    unfold read_settings, sample_given. apply (chain _ _ _ _).
    - unfold has_value. destruct (o ("observables_file_" ++ suf)) as [v|] eqn:E.
      + rewrite (chain _ _ _ True (ss_req _)); [|intros _ a _; apply done]. unfold given. cbn [fst snd]. rewrite E. split.
        * intros [(w & Ew & K) _]. injection Ew as <-. left. destruct v; try destruct K. eexists. reflexivity.
        * intros [[f Ef]|[C _]]; [|discriminate C]. injection Ef as ->. split; [|exact I]. eexists. split; [reflexivity|exact I].
      + rewrite (chain _ _ _ (nearly ("log10_obs_max_" ++ suf, KArray) o /\ nearly ("zmin_" ++ suf, KArray) o /\ nearly ("zmax_" ++ suf, KArray) o /\ nearly ("nz_" ++ suf, KCount) o) (sa _)).
        * unfold limits. rewrite Forall5. split; [intros H; right; split; [reflexivity|exact H]|intros [[f C]|[_ H]]; [discriminate C|exact H]].
        * intros _ a _. apply (chain _ _ _ _ (sa _)). intros _ b _. apply (chain _ _ _ _ (sa _)). intros _ c _.
          apply (chain _ _ _ _ (sa _)). intros _ d _. rewrite nearly_count. rewrite (chain _ _ _ True (sc _)); [tauto|]. intros _ n _. apply done.
    - intros _ p _. apply (chain _ _ _ _ (sc _)). intros _ nobs _. rewrite (chain _ _ _ True (ss _ _)); [tauto|].
      intros _ u _. destruct p as [[f [[a b] [c d]]] n]. apply done.
  Qed.
End Readers.

Section Whole.
  Variables (missing wrong : string) (o : options).
  Notation gb := (get_bool missing wrong o).
  Lemma val_flag n b : gb n (Some false) = Ok b -> (b = true <-> flag o n).
  Proof.
    unfold get_bool, flag, absent. destruct (o n) as [[]|]; intros H; try discriminate H; injection H as <-; split; intros E;
      try discriminate E; try congruence. 
  Qed.
  (** The request read. *)
  Definition flags_ok (q : request) : Prop :=
    (q_mm q = true <-> flag o "p_mm") /\ (q_gg q = true <-> flag o "p_gg") /\ (q_gm q = true <-> flag o "p_gm") /\
    (q_gI q = true <-> flag o "p_gI") /\ (q_mI q = true <-> flag o "p_mI") /\ (q_II q = true <-> flag o "p_II") /\
    (q_response q = true <-> flag o "response") /\ (q_split q = true <-> flag o "split_ia") /\
    (q_dewiggle q = true <-> flag o "dewiggle") /\ (q_pointmass q = true <-> flag o "point_mass").
  Ltac inv_binds H := repeat match type of H with
    | bind ?r _ = Ok _ => let E := fresh "E" in destruct r eqn:E; [cbn [bind] in H|discriminate H] end.
  Lemma request_flags q : setup_pipeline_parameters missing wrong o = Ok q -> flags_ok q.
  Proof.
    unfold setup_pipeline_parameters. intros H. inv_binds H. injection H as <-. unfold flags_ok. cbn.
    repeat split; intros F; match goal with
      | F : ?b = true, E : get_bool _ _ _ _ _ = Ok ?b |- _ => exact (proj1 (val_flag _ _ E) F)
      | F : flag _ ?n, E : get_bool _ _ _ ?n _ = Ok ?b |- ?b = true => exact (proj2 (val_flag _ _ E) F)
      end.
  Qed.
  Lemma request_galaxy q : flags_ok q -> (q_galaxy q = true <-> wants_galaxies o).
  Proof. intros (_ & H1 & H2 & _). unfold q_galaxy, wants_galaxies. rewrite Bool.orb_true_iff. tauto. Qed.
  Lemma request_alignment q : flags_ok q -> (q_alignment q = true <-> wants_alignment o).
  Proof.
    intros (_ & _ & _ & H1 & H2 & H3 & _). unfold q_alignment, wants_alignment. rewrite !Bool.orb_true_iff. tauto.
  Qed.
  Lemma request_mode q : setup_pipeline_parameters missing wrong o = Ok q ->
    (mode_name (q_mode q) = Some "bnl" <-> o "nonlinear_mode" = Some (OStr "bnl")).
  Proof.
    unfold setup_pipeline_parameters. intros H. inv_binds H. injection H as <-. cbn [q_mode].
    match goal with E : string_or_none _ _ _ "nonlinear_mode" _ = Ok _ |- _ => revert E end. unfold string_or_none.
    destruct (o "nonlinear_mode") as [[z|x|b|s|l]|]; intros Q; try discriminate Q.
    - injection Q as <-. split; intros C; discriminate C.
    - injection Q as <-. split; intros C; discriminate C.
    - destruct (String.eqb s "None") eqn:Es; injection Q as <-; split; intros C.
      + discriminate C. + apply String.eqb_eq in Es. congruence. + cbn in C. congruence. + cbn. congruence.
    - destruct (String.eqb missing "ValueError"); [|discriminate Q]. injection Q as <-. split; intros C; discriminate C.
  Qed.

  Lemma s_request : succeeds (setup_pipeline_parameters missing wrong o) <->
    Forall (typed o) (firstn 17 always_read) /\
    (missing = "ValueError" \/ (o "hmcode_ingredients" <> None /\ o "nonlinear_mode" <> None)).
  Proof.
    unfold setup_pipeline_parameters.
    set (T n k := typed o (n, k)).
    transitivity (T "p_mm" KBool /\ T "p_gg" KBool /\ T "p_gm" KBool /\ T "p_gI" KBool /\ T "p_mI" KBool /\ T "p_II" KBool /\
      T "response" KBool /\ T "split_ia" KBool /\ T "one_halo_ktrunc_ia" KOptional /\ T "two_halo_ktrunc_ia" KOptional /\
      T "one_halo_ktrunc" KOptional /\ T "two_halo_ktrunc" KOptional /\
      (T "hmcode_ingredients" KOptional /\ (missing = "ValueError" \/ o "hmcode_ingredients" <> None)) /\
      (T "nonlinear_mode" KOptional /\ (missing = "ValueError" \/ o "nonlinear_mode" <> None)) /\
      T "dewiggle" KBool /\ T "point_mass" KBool /\ T "poisson_type" KString /\ True).
    - unfold T. do 8 (apply (chain _ _ _ _ (sb _ _ _ _ _)); intros _ ? _).
      do 4 (apply (chain _ _ _ _ (so _ _ _ _ _)); intros _ ? _).
      do 2 (apply (chain _ _ _ _ (so_none _ _ _ _)); intros _ ? _).
      do 2 (apply (chain _ _ _ _ (sb _ _ _ _ _)); intros _ ? _).
      apply (chain _ _ _ _ (ss _ _ _ _ _)); intros _ ? _. apply done.
    - cbn [firstn always_read]. rewrite !Forall_cons_iff. unfold T. pose proof (Forall_nil (typed o)). tauto.
  Qed.
  Lemma s_hmf : succeeds (setup_hmf_config missing wrong o) <->
    Forall (typed o) (skipn 22 always_read) /\ o "nmass" <> Some (OInt 0).
  Proof.
    unfold setup_hmf_config.
    set (T n k := typed o (n, k)).
    transitivity (T "log_mass_min" KDouble /\ T "log_mass_max" KDouble /\ T "nmass" KInt /\ o "nmass" <> Some (OInt 0) /\
      T "zmin_hmf" KDouble /\ T "zmax_hmf" KDouble /\ T "nz_hmf" KInt /\ T "nz_hmf" KCount /\ T "nk" KInt /\
      T "profile_cen" KString /\ T "profile_sat" KString /\ T "profile_value_name" KString /\ T "hmf_model" KString /\
      T "mdef_model" KString /\ T "overdensity" KDouble /\ T "cm_model_cen" KString /\ T "cm_model_sat" KString /\
      T "delta_c" KDouble /\ T "bias_model" KString /\ True).
    - unfold T. do 2 (apply (chain _ _ _ _ (sd _ _ _ _ _)); intros _ ? _).
      apply (chain _ _ _ _ (si _ _ _ _ _)). intros _ nm Enm.
      apply (chain _ _ _ _).
      { revert Enm. unfold get_int, absent. destruct (o "nmass") as [[z|x|b|s|l]|]; intros E; try discriminate E; injection E as <-.
        - destruct (Z.eqb z 0) eqn:Ez.
          + apply Z.eqb_eq in Ez. subst. split; [intros [v C]; discriminate C|intros C; destruct C; reflexivity].
          + apply Z.eqb_neq in Ez. split; [intros _ C; injection C as ->; apply Ez; reflexivity|intros _; eexists; reflexivity].
        - cbn. split; [discriminate|intros _; eexists; reflexivity]. }
      intros _ ? _. do 2 (apply (chain _ _ _ _ (sd _ _ _ _ _)); intros _ ? _).
      apply (chain _ _ _ _ (si _ _ _ _ _)). intros _ nz Enz.
      apply (chain _ _ _ _).
      { revert Enz. unfold get_int, absent, typed, of_kind. cbn [fst snd]. destruct (o "nz_hmf") as [[z|x|b|s|l]|]; intros E; try discriminate E; injection E as <-.
        - destruct (Z.ltb z 0) eqn:Ez.
          + apply Z.ltb_lt in Ez. split; [intros [v C]; discriminate C|intros C; lia].
          + apply Z.ltb_ge in Ez. split; [intros _; exact Ez|intros _; eexists; reflexivity].
        - cbn. split; [trivial|intros _; eexists; reflexivity]. }
      intros _ ? _. apply (chain _ _ _ _ (si _ _ _ _ _)); intros _ ? _.
      do 5 (apply (chain _ _ _ _ (ss _ _ _ _ _)); intros _ ? _).
      apply (chain _ _ _ _ (sd _ _ _ _ _)); intros _ ? _.
      do 2 (apply (chain _ _ _ _ (ss _ _ _ _ _)); intros _ ? _).
      apply (chain _ _ _ _ (sd _ _ _ _ _)); intros _ ? _.
      apply (chain _ _ _ _ (ss _ _ _ _ _)); intros _ ? _. apply done.
    - cbn [skipn always_read]. rewrite !Forall_cons_iff. unfold T.
      assert (C : typed o ("nz_hmf", KCount) -> typed o ("nz_hmf", KInt)).
      { unfold typed, of_kind. cbn [fst snd]. destruct (o "nz_hmf") as [[]|]; trivial. }
      pose proof (Forall_nil (typed o)). tauto.
  Qed.

  (** The galaxy part. *)
  Lemma galaxy_file f a b c d n nobs u : ~ succeeds (setup_hod_galaxy (setup_hod_settings (Some f) a b c d n nobs u)).
  Proof. intros [v H]. discriminate H. Qed.
  Lemma galaxy_limits a b c d n nobs u : succeeds (setup_hod_galaxy (setup_hod_settings None a b c d n nobs u)) <->
    a <> [] /\ b <> [] /\ c <> [] /\ d <> [].
  Proof.
    destruct a as [|a0 a]; [split; [intros [v H]; discriminate H|intros [H _]; congruence]|].
    destruct b as [|b0 b]; [split; [intros [v H]; discriminate H|intros (_ & H & _); congruence]|].
    destruct c as [|c0 c]; [split; [intros [v H]; discriminate H|intros (_ & _ & H & _); congruence]|].
    destruct d as [|d0 d]; [split; [intros [v H]; discriminate H|intros (_ & _ & _ & H); congruence]|].
    split; [intros _; repeat split; discriminate|intros _; eexists; reflexivity].
  Qed.
  Lemma array_nonempty n l : get_array missing o n = Ok l -> (l <> [] <-> given o (n, KArray)).
  Proof.
    unfold get_array, given, of_kind. cbn [fst snd]. destruct (o n) as [[z|x|b|s|l']|]; intros H; try discriminate H; injection H as <-.
    - split; [intros _; eexists; split; [reflexivity|exact I]|discriminate].
    - split; [intros _; eexists; split; [reflexivity|exact I]|discriminate].
    - split; [intros _; eexists; split; [reflexivity|exact I]|discriminate].
    - destruct l' as [|y l']; split.
      + congruence. + intros (v & E & K). injection E as <-. destruct K.
      + intros _. eexists. split; [reflexivity|exact I]. + discriminate.
  Qed.
  Lemma s_galaxy : succeeds (bind (read_settings missing wrong o "hod") (fun d => bind (setup_hod_galaxy d) (fun p =>
       let '(h, mm, n) := p in Ok (hget h 0, hget h mm, n)))) <-> limits_given o "hod".
  Proof.
    rewrite ok_bind. split.
    - intros (d & E & S). rewrite ok_bind in S. destruct S as (p & E2 & _).
      assert (SG : sample_given o "hod") by (apply (s_settings missing wrong); exists d; exact E).
      destruct SG as (G1 & G2 & G3). unfold limits_given.
      unfold read_settings, has_value in E. destruct (o ("observables_file_" ++ "hod")) as [v|] eqn:Eo.
      + exfalso. cbv iota beta in E. inv_binds E.
        match goal with E0 : bind _ _ = Ok ?p |- _ => rename E0 into EB end. inv_binds EB. injection EB as <-. injection E as <-.
        eapply galaxy_file. exists p. exact E2.
      + split; [reflexivity|]. split; [|split; assumption]. cbv iota beta in E. inv_binds E.
        match goal with E0 : bind _ _ = Ok ?p |- _ => rename E0 into EB end. inv_binds EB. injection EB as <-. injection E as <-.
        match type of E2 with ?x = _ => assert (GL : succeeds x) by (exists p; exact E2) end.
        apply galaxy_limits in GL as (N1 & N2 & N3 & N4).
        unfold limits. rewrite Forall5. 
        repeat split; try (eapply array_nonempty; eassumption). apply sc with (missing := missing). eexists. eassumption.
    - intros (Eo & L & N & U).
      assert (SG : sample_given o "hod").
      { split; [right; split; [exact Eo|]|split; assumption]. revert L. apply Forall_impl. intros x Hx. left. exact Hx. }
      apply (s_settings missing wrong) in SG as [d E]. exists d. split; [exact E|]. rewrite ok_bind.
      unfold read_settings, has_value in E. rewrite Eo in E. cbv iota beta in E. inv_binds E.
      match goal with E0 : bind _ _ = Ok ?p |- _ => rename E0 into EB end. inv_binds EB. injection EB as <-. injection E as <-.
      unfold limits in L. rewrite Forall5 in L. destruct L as (L1 & L2 & L3 & L4 & _).
      match goal with |- exists a, ?x = Ok a /\ _ => assert (GL : succeeds x) end.
      { apply galaxy_limits. repeat split; (eapply array_nonempty; [eassumption|assumption]). }
      destruct GL as [[[h mm] n] GL]. exists (h, mm, n). split; [exact GL|]. eexists. reflexivity.
  Qed.
End Whole.
