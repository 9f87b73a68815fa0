(** Proofs about the keyword arguments: the parameters a call leaves. *)
From Coq Require Import ZArith FunctionalExtensionality.
From Verif Require Import Base Spec Interp QuadFacts InterpFacts HodModel PkModel AddModel AddSpec PipeModel PipeSpec PipeFacts PipeFacts2 PipeFacts3 PipeFacts4 PipeFacts5 PipeFacts6
  OptModel OptSpec BaseFacts OptFacts OptFacts2 OptFacts3 OptFacts4 OptFacts5 KwModel KwSpec KwFacts KwFacts2.
Open Scope string_scope.

Ltac inv_binds H := repeat match type of H with
  | bind ?r _ = Ok _ => let E := fresh "E" in destruct r eqn:E; [cbn [bind] in H|discriminate H] end.

Section Module.
  Variables (table : Type) (missing wrong : string) (S : spectra table) (m : module_config).
  Notation X := (module_ext table missing wrong S m).
  Let c := config_of m.
  Definition but_hod (o1 o2 : store table) : Prop := forall n, n <> "hod_settings" -> o2 n = o1 n.
  Lemma off_list n (l : list string) : existsb (String.eqb n) l = false -> ~ In n l.
  Proof.
    intros H I. assert (E : existsb (String.eqb n) l = true) by (apply existsb_exists; exists n; split; [exact I|apply String.eqb_refl]). congruence.
  Qed.
  Lemma get_none {V} (d : dict V) n : ~ In n (map fst d) -> dget d n = None.
  Proof. intros H. destruct (dget d n) eqn:E; [exfalso; apply H, dget_In; eauto|reflexivity]. Qed.
  Lemma in_off n l l' : In n l -> forallb (fun x => negb (existsb (String.eqb x) l')) l = true -> ~ In n l'.
  Proof.
    intros I H. rewrite forallb_forall in H. specialize (H n I). apply off_list. now destruct (existsb (String.eqb n) l').
  Qed.
  (** The parameters of the object after a successful call. *)
  Lemma final b s : snd (execute X c b s) = Ok tt -> let w := p_power X (fst (fst (execute X c b s))) in
    exists kw ka, read_kwargs table missing wrong m b = Ok kw /\ read_align table wrong m b = Ok ka /\
      (forall n v, dget kw n = Some v -> w n = v) /\
      (mode_is c "bnl" = true -> exists t, snd (bnl_step X c b s) = Ok t /\ w "beta_nl" = KBeta table t) /\
      ((g_response c || mode_is c "fortuna")%bool = true -> exists d, read_nl table missing m b = Ok d /\ forall n v, dget d n = Some v -> w n = v) /\
      ((galaxy c || alignment c)%bool = true -> exists pp hp, poisson_params missing b (g_poisson c) = Ok pp /\
         hod_params b (g_hod_values c) (g_hod_model c) (g_nbins c) = Ok hp /\
         (forall n v, n <> "hod_settings" -> dget (galaxy_kwargs table m pp hp (g_settings c)) n = Some v -> w n = v) /\
         (alignment c = false -> w "hod_settings" = KSettings table (g_settings c))) /\
      (alignment c = true -> exists d, align_params b (g_pop1 c) (g_central c) (g_satellite c) = Ok d /\ w "align_params" = KAlign table d /\
         forall n v, dget ka n = Some v -> w n = v).
  Proof.
    intros H. cbv zeta.
    assert (B1 : alignment c = true -> forall o, but_hod o (fst (x_update X o (x_hod X (g_ia_1 c))))).
    { intros A o n Hn. change (fst (update_all table S o (x_hod X (g_ia_1 c))) n = o n). rewrite update_store. apply set_frame. cbn. intros [E|[]]. congruence. }
    destruct (settled X but_hod (fun o n _ => eq_refl) (fun a b' d H1 H2 n Hn => eq_trans (H2 n Hn) (H1 n Hn)) c b s B1 H)
      as (base & beta & nl & hod & al & Sh & Eb & Eu & Rl).
    pose proof (full_names table missing wrong S m b base beta nl hod al Sh) as [N _].
    assert (W0 : forall n v, n <> "hod_settings" -> dget (x_full X base beta nl hod al) n = Some v -> p_power X (fst (fst (execute X c b s))) n = v).
    { intros n v Hn G. etransitivity; [exact (Rl n Hn)|]. change (fst (update_all table S (p_power X (fst s)) (x_full X base beta nl hod al)) n = v). rewrite update_store. exact (set_value table S _ N _ _ _ (update_ok table S _ _ Eu) G). }
    assert (W1 : alignment c = false -> forall v, dget (x_full X base beta nl hod al) "hod_settings" = Some v ->
      p_power X (fst (fst (execute X c b s))) "hod_settings" = v).
    { intros A v G. assert (B2 : alignment c = true -> forall o : store table, o = fst (x_update X o (x_hod X (g_ia_1 c)))) by (intros C; congruence).
      destruct (settled X eq (fun o => eq_refl) (fun a b' d => @eq_trans _ a b' d) c b s B2 H)
        as (base' & beta' & nl' & hod' & al' & Sh' & Eb' & Eu' & Rl').
      assert (Q : base' = base /\ beta' = beta /\ nl' = nl /\ hod' = hod /\ al' = al).
      { destruct Sh as (S1 & S2 & S3 & S4 & S5), Sh' as (T1 & T2 & T3 & T4 & T5). rewrite A in S5, T5.
        split; [congruence|]. split; [congruence|]. split; [|split; [|congruence]].
        - destruct (g_response c || mode_is c "fortuna")%bool; [|congruence]. destruct S3 as (d & D1 & ->), T3 as (d' & D2 & ->). congruence.
        - destruct (galaxy c || alignment c)%bool; [|congruence]. destruct S4 as (d & d' & D1 & D2 & ->), T4 as (d1 & d1' & D3 & D4 & ->). congruence. }
      destruct Q as (-> & -> & -> & -> & ->). rewrite <- Rl'. change (fst (update_all table S (p_power X (fst s)) (x_full X base beta nl hod al)) "hod_settings" = v). rewrite update_store. exact (set_value table S _ N _ _ _ (update_ok table S _ _ Eu) G). }
    destruct Sh as (S1 & S2 & S3 & S4 & S5). clear Rl B1 N.
    change (bind (read_kwargs table missing wrong m b) (fun kw => bind (read_align table wrong m b) (fun al => Ok (kw, al))) = Ok base) in S1.
    destruct (read_kwargs table missing wrong m b) as [kw|] eqn:E; [cbn [bind] in S1|discriminate S1].
    destruct (read_align table wrong m b) as [ka|] eqn:E0; [cbn [bind] in S1|discriminate S1]. injection S1 as <-.
    assert (K : map fst kw = base_keys) by (eapply base_names; exact E). exists kw, ka. split; [reflexivity|]. split; [reflexivity|].
    set (w := p_power X (fst (fst (execute X c b s)))) in *. clearbody w.
    cbn [x_full module_ext fst snd] in W0, W1. cbv zeta in W0, W1. clear Eu.
    set (kw1 := match beta with Some t => dupdate kw [("beta_nl", KBeta table t)] | None => kw end) in *.
    set (kw2 := match nl with Some d => dupdate kw1 d | None => kw1 end) in *.
    set (kw3 := match hod with Some (pp, hp, hs) => dupdate kw2 (galaxy_kwargs table m pp hp hs) | None => kw2 end) in *.
    set (kw4 := match al with Some d => dupdate kw3 (("align_params", KAlign table d) :: ka) | None => kw3 end) in *.
    assert (G4 : forall n, ~ In n set_for_alignment -> dget kw4 n = dget kw3 n).
    { intros n Hn. unfold kw4. destruct (alignment c) eqn:A; [|subst al; reflexivity]. destruct S5 as (d & _ & ->).
      assert (KA : map fst ka = ["one_halo_ktrunc_ia"; "two_halo_ktrunc_ia"; "t_eff"]) by (eapply align_names; eassumption). rewrite dupdate_get by (cbn [map fst]; rewrite KA; apply NoDup_b; reflexivity).
      rewrite get_none; [reflexivity|]. cbn [map fst]. rewrite KA. exact Hn. }
    assert (G3 : forall n, ~ In n set_for_galaxies -> dget kw3 n = dget kw2 n).
    { intros n Hn. unfold kw3. destruct hod as [[[pp hp] hs]|]; [|reflexivity].
      rewrite dupdate_get by (rewrite galaxy_names; apply NoDup_b; reflexivity). rewrite get_none; [reflexivity|]. rewrite galaxy_names. exact Hn. }
    assert (KN : forall d, nl = Some d -> map fst d = set_for_nonlinear).
    { intros d ->. destruct (g_response c || mode_is c "fortuna")%bool; [|discriminate S3]. destruct S3 as (d' & D & Q). injection Q as <-. eapply nl_names; exact D. }
    assert (G2 : forall n, ~ In n set_for_nonlinear -> dget kw2 n = dget kw1 n).
    { intros n Hn. unfold kw2. destruct nl as [d|]; [|reflexivity]. pose proof (KN d eq_refl) as KD. 
      rewrite dupdate_get by (rewrite KD; apply NoDup_b; reflexivity). rewrite get_none; [reflexivity|]. rewrite KD. exact Hn. }
    assert (G1 : forall n, n <> "beta_nl" -> dget kw1 n = dget kw n).
    { intros n Hn. unfold kw1. destruct beta as [t|]; [|reflexivity]. rewrite dupdate_get by (apply NoDup_b; reflexivity).
      cbn [dget]. destruct (String.eqb_spec n "beta_nl"); [congruence|reflexivity]. }
    split; [|split; [|split; [|split]]].
    - intros n v G. assert (I : In n base_keys) by (rewrite <- K; apply dget_In; eauto).
      assert (O : ~ In n (set_for_alignment ++ set_for_galaxies ++ set_for_nonlinear ++ ["beta_nl"])%list) by (apply (in_off _ _ _ I); reflexivity).
      apply W0; [|rewrite G4, G3, G2, G1; [exact G|..]]; intros C; apply O; subst; rewrite !in_app_iff; try (cbn; tauto).
    - intros M. rewrite M in S2. destruct S2 as (t & ->). rewrite M in Eb. exists t. split.
      + unfold when, bindM in Eb. destruct (bnl_step X c b s) as [s1 [t'|]]; [|discriminate Eb]. injection Eb as ->. reflexivity.
      + apply W0; [discriminate|]. rewrite G4, G3, G2 by (apply off_list; reflexivity).
        unfold kw1. rewrite dupdate_get by (apply NoDup_b; reflexivity). reflexivity.
    - intros M. rewrite M in S3. destruct S3 as (d & D & ->). exists d. split; [exact D|]. intros n v G. pose proof (KN d eq_refl) as KD.
      assert (I : In n set_for_nonlinear) by (rewrite <- KD; apply dget_In; eauto).
      assert (O : ~ In n (set_for_alignment ++ set_for_galaxies)%list) by (apply (in_off _ _ _ I); reflexivity).
      apply W0; [intros C; apply O; subst; cbn; tauto|].
      rewrite G4, G3 by (intros C; apply O; rewrite !in_app_iff; tauto). unfold kw2. rewrite dupdate_get by (rewrite KD; apply NoDup_b; reflexivity). now rewrite G.
    - intros M. rewrite M in S4. destruct S4 as (pp & hp & Q1 & Q2 & ->). exists pp, hp. split; [exact Q1|]. split; [exact Q2|].
      assert (O : forall n v, dget (galaxy_kwargs table m pp hp (g_settings c)) n = Some v -> dget kw4 n = Some v).
      { intros n v G. assert (I : In n set_for_galaxies) by (rewrite <- (galaxy_names table m pp hp (g_settings c)); apply dget_In; eauto).
        rewrite G4 by (apply (in_off _ _ _ I); reflexivity). unfold kw3. rewrite dupdate_get by (rewrite galaxy_names; apply NoDup_b; reflexivity). now rewrite G. }
      split; [intros n v Hn G; apply (W0 n v Hn), O, G|]. intros A. apply (W1 A), O. reflexivity.
    - intros A. rewrite A in S5. destruct S5 as (d & D & ->). exists d. split; [exact D|].
      assert (KA : map fst ka = ["one_halo_ktrunc_ia"; "two_halo_ktrunc_ia"; "t_eff"]) by (eapply align_names; eassumption).
      assert (O : forall n v, dget (("align_params", KAlign table d) :: ka) n = Some v -> w n = v).
      { intros n v G. assert (I : In n set_for_alignment) by (unfold set_for_alignment; rewrite <- KA; change (In n (map fst (("align_params", KAlign table d) :: ka))); apply dget_In; eauto).
        apply W0; [intros C; subst n; cbn in I; repeat (destruct I as [I|I]; [discriminate I|]); exact I|].
        unfold kw4. rewrite dupdate_get by (cbn [map fst]; rewrite KA; apply NoDup_b; reflexivity). now rewrite G. }
      split; [apply O; reflexivity|]. intros n v G. apply O. cbn [dget]. destruct (String.eqb_spec n "align_params") as [->|]; [|exact G].
      exfalso. assert (In "align_params" (map fst ka)) by (apply dget_In; eauto). rewrite KA in H0. cbn in H0.
      repeat (destruct H0 as [H0|H0]; [discriminate H0|]). exact H0.
  Qed.
End Module.
