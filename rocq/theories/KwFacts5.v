(** Proofs about the keyword arguments: grids, readable blocks, beta_nl. *)
From Coq Require Import ZArith FunctionalExtensionality Lia.
From Verif Require Import Base Spec Interp QuadFacts InterpFacts HodModel PkModel AddModel AddSpec PipeModel PipeSpec PipeFacts PipeFacts2 PipeFacts3 PipeFacts4 PipeFacts5 PipeFacts6
  OptModel OptSpec BaseFacts OptFacts OptFacts2 OptFacts3 OptFacts4 OptFacts5 KwModel KwSpec KwFacts KwFacts2 KwFacts3 KwFacts4.
Open Scope string_scope.

Section Module.
  Variables (table : Type) (missing wrong : string) (S : spectra table) (o : options) (darkemu : bool) (m : module_config).
  Hypothesis H : setup missing wrong o darkemu = Ok m.
  Notation X := (module_ext table missing wrong S m).
  Let c := config_of m.
  Let h := m_hmf m.
  Lemma k_read b n k : read_k missing m b = Ok (n, k) -> exists ks, b "matter_power_lin" "k_h" = Some (VArr ks) /\ ks <> [] /\
    (0 <= h_nk h)%Z /\ n = Z.to_nat (h_nk h) /\ k = k_grid h (List.length ks) (at_ ks).
  Proof.
    unfold read_k, need_arr. intros Q. destruct (b "matter_power_lin" "k_h") as [[| |ks| |]|]; try discriminate Q. cbn [bind] in Q.
    destruct ks as [|x ks]; [discriminate Q|]. unfold k_points in Q. fold h in Q. destruct (Z.ltb_spec (h_nk h) 0) as [|L]; [discriminate Q|].
    cbn [bind] in Q. injection Q as <- <-. exists (x :: ks). repeat split; [discriminate|exact L].
  Qed.
  Lemma grid_facts b s : snd (execute X c b s) = Ok tt -> let w := p_power X (fst (fst (execute X c b s))) in
    exists zs ks p k t, table_of b "matter_power_lin" zs ks p /\
      let nz := Z.to_nat (int (o "nz_hmf") 15) in let nk := Z.to_nat (int (o "nk") 100) in
      let z := linspace (num (o "zmin_hmf") 0) (num (o "zmax_hmf") 3) nz in
      w "z_vec" = KAxis table nz z /\ w "k_vec" = KAxis table nk k /\ w "matter_power_lin" = KGrid table nz nk t /\
      k = logspace (log10 (nth 0 ks 0)) (log10 (nth (List.length ks - 1) ks 0)) nk /\
      ((2 <= List.length zs)%nat -> (2 <= List.length ks)%nat -> sorted zs -> sorted ks -> (0 < nth 0 ks 0)%R -> resamples nz nk z k t zs ks p) /\
      (flag o "response" \/ o "nonlinear_mode" = Some (OStr "fortuna") -> exists zs' ks' p' t', table_of b "matter_power_nl" zs' ks' p' /\
         w "matter_power_nl" = KGrid table nz nk t' /\ (exists v, w "response" = KBool table v /\ bool_is v o "response") /\
         ((2 <= List.length zs')%nat -> (2 <= List.length ks')%nat -> sorted zs' -> sorted ks' -> (0 < nth 0 ks' 0)%R -> resamples nz nk z k t' zs' ks' p')).
  Proof.
    intros E. cbv zeta. destruct (final table missing wrong S m b s E) as (kw & ka & Ek & _ & V & _ & Vn & _).
    set (w := p_power X (fst (fst (execute X c b s)))) in *. change (forall n v, dget kw n = Some v -> w n = v) in V.
    destruct (setup_flags _ _ _ _ _ H) as (_ & _ & _ & _ & _ & _ & FR & _). fold c in FR.
    destruct (config_request _ _ _ _ _ H) as (R1 & _). fold c in R1.
    destruct (setup_parts _ _ _ _ _ H) as (_ & Eh & _). destruct (hmf_values _ _ _ _ Eh) as (_ & _ & _ & Z1 & _ & Z2 & Z3). fold h in Z1, Z2, Z3.
    rewrite <- Z3, <- Z1, <- Z2.
    unfold read_kwargs in Ek. inv_binds Ek. injection Ek as <-.
    match goal with E : read_k _ _ _ = Ok ?x |- _ => destruct x as [nk k]; pose proof E as Er; apply k_read in E as (ks & K1 & K2 & K3 & K4 & K5) end.
    match goal with E : read_power _ _ _ _ _ = Ok ?x |- _ => rename x into t; rename E into Ep end. cbn [snd fst] in *.
    destruct (power_read _ _ _ _ _ _ Ep) as (zs & ks' & p & T & _).
    assert (ks' = ks) by (destruct T as (_ & T & _); congruence). subst ks'. exists zs, ks, p, k, t. subst nk.
    split; [exact T|]. split; [apply V; reflexivity|]. split; [apply V; reflexivity|]. split; [apply V; reflexivity|].
    split; [subst k; reflexivity|]. split; [intros; eapply power_resamples; eassumption|].
    intros W.
    assert (B : (g_response c || mode_is c "fortuna")%bool = true).
    { apply orb_true_iff. destruct W as [W|W]; [left; apply FR, W|right]. unfold mode_is. rewrite R1, W. reflexivity. }
    destruct (Vn B) as (d & D & Vd). unfold read_nl in D. rewrite Er in D. cbn [bind] in D. inv_binds D. injection D as <-.
    match goal with E : read_power _ _ _ "matter_power_nl" _ = Ok ?x |- _ => rename x into t'; rename E into Ep' end. cbn [snd fst] in *.
    destruct (power_read _ _ _ _ _ _ Ep') as (zs' & ks' & p' & T' & _). exists zs', ks', p', t'. split; [exact T'|].
    split; [apply Vd; reflexivity|]. split; [exists (q_response (m_request m)); split; [apply Vd; reflexivity|exact FR]|].
    intros; eapply power_resamples; eassumption.
  Qed.

  (** ** Readable blocks *)
  Lemma kwargs_readable b zs : b "matter_power_lin" "z" = Some (VArr zs) -> (2 <= List.length zs)%nat -> sorted zs ->
    ((exists kw, read_kwargs table missing wrong m b = Ok kw) <-> readable b (profile_section o) h).
  Proof.
    intros Ez Lz Sz. destruct (config_ingredients _ _ _ _ _ H) as (_ & _ & I3 & _). fold h in I3. unfold profile_section. rewrite <- I3.
    assert (Dd : forall s n d x, double wrong b s n d = Ok x -> number_or_absent b s n).
    { intros s n d x. unfold double, number_or_absent. destruct (b s n) as [[]|]; intros Q; try discriminate Q; eauto. }
    assert (Nn : forall s n x, need missing b s n = Ok x -> b s n <> None).
    { intros s n x. unfold need. destruct (b s n); intros Q; [discriminate|discriminate Q]. }
    split.
    - intros [kw Ek]. unfold read_kwargs in Ek. inv_binds Ek. clear Ek.
      match goal with E : read_k _ _ _ = Ok ?x |- _ => destruct x as [nk k]; apply k_read in E as (ks & K1 & K2 & K3 & _) end.
      match goal with E : read_power _ _ _ _ _ = Ok ?x |- _ => rename E into Ep end.
      destruct (power_read _ _ _ _ _ _ Ep) as (zs' & ks' & p & T & _).
      assert (ks' = ks /\ zs' = zs) as (-> & ->) by (destruct T as (T1 & T & _); split; congruence).
      unfold readable, needed_values, block_numbers, cosmology_names. cbn [map app].
      split; [repeat (apply Forall_cons; [cbn [fst snd]; eapply Nn; eassumption|]); apply Forall_nil|].
      split; [repeat (apply Forall_cons; [cbn [fst snd]; eapply Dd; eassumption|]); apply Forall_nil|]. split; [eapply Dd; eassumption|]. split; [|exact K3].
      exists zs, ks, p. split; [exact T|]. split; [exact K2|]. eapply power_readable; [exact T|exact Lz|exact Sz|eauto].
    - intros (N & D & Mb & (zs' & ks & p & T & K & C) & Nk).
      assert (zs' = zs) as -> by (destruct T as (T1 & _); congruence).
      assert (N' : forall s n, In (s, n) needed_values -> exists v, need missing b s n = Ok v).
      { intros s n I. rewrite Forall_forall in N. specialize (N _ I). cbn in N. unfold need. destruct (b s n); [eauto|congruence]. }
      assert (D' : forall kn d, In kn (block_numbers (h_profile_value h)) -> exists v, double wrong b (fst (fst (snd kn))) (snd (fst (snd kn))) d = Ok v).
      { intros kn d I. rewrite Forall_forall in D. specialize (D _ I). unfold double. destruct D as [->|[x ->]]; eauto. }
      assert (M' : exists v, double wrong b "halo_model_parameters" "m_b" (1387/100) = Ok v) by (unfold double; destruct Mb as [->|[x ->]]; eauto).
      assert (RK : read_k missing m b = Ok (Z.to_nat (h_nk h), k_grid h (List.length ks) (at_ ks))).
      { unfold read_k, need_arr. destruct T as (_ & -> & _). cbn [bind]. destruct ks; [congruence|]. unfold k_points. fold h.
        destruct (Z.ltb_spec (h_nk h) 0); [lia|]. reflexivity. }
      destruct (proj2 (power_readable missing m b "matter_power_lin" (k_grid h (List.length ks) (at_ ks)) zs ks p T Lz Sz) C) as [t Et].
      unfold read_kwargs. fold h. unfold cosmo. rewrite RK. cbn [snd].
      repeat match goal with
        | |- exists kw, bind (need missing b ?s ?n) _ = Ok kw =>
            first [ destruct (N' s n ltac:(cbn; tauto)) as [? ->] | unfold need at 1; rewrite Ez ]; cbn [bind snd]
        | |- exists kw, bind (Ok _) _ = Ok kw => cbn [bind snd]
        | |- exists kw, bind (read_power _ _ _ _ _) _ = Ok kw => rewrite Et; cbn [bind snd]
        | |- exists kw, bind (double wrong b "halo_model_parameters" "m_b" _) _ = Ok kw => destruct M' as [? ->]; cbn [bind]
        | |- exists kw, bind (double wrong b ?s ?n ?d) _ = Ok kw =>
            first [ destruct (D' ("norm_cen", (s, n, 1%R)) d ltac:(cbn; tauto)) as [? Q]
                  | destruct (D' ("norm_sat", (s, n, 1%R)) d ltac:(cbn; tauto)) as [? Q]
                  | destruct (D' ("eta_cen", (s, n, 0%R)) d ltac:(cbn; tauto)) as [? Q]
                  | destruct (D' ("eta_sat", (s, n, 0%R)) d ltac:(cbn; tauto)) as [? Q]
                  | destruct (D' ("tcmb", (s, n, (27255/10000)%R)) d ltac:(cbn; tauto)) as [? Q] ]; cbn [fst snd] in Q; rewrite Q; clear Q; cbn [bind]
        end. eexists. reflexivity.
  Qed.
  Lemma unreadable b s : (forall kw, read_kwargs table missing wrong m b <> Ok kw) ->
    exists e, execute X c b s = (s, Err e).
  Proof.
    intros N. unfold execute, bindM at 1, lift at 1. change (x_read_base X b) with
      (bind (read_kwargs table missing wrong m b) (fun kw => bind (read_align table wrong m b) (fun al => Ok (kw, al)))).
    destruct (read_kwargs table missing wrong m b) as [kw|e]; [exfalso; now apply (N kw)|]. exists e. destruct s. reflexivity.
  Qed.
  Theorem readable_blocks b zs : b "matter_power_lin" "z" = Some (VArr zs) -> (2 <= List.length zs)%nat -> sorted zs ->
    (forall s, snd (execute X c b s) = Ok tt -> readable b (profile_section o) h) /\
    (~ readable b (profile_section o) h -> forall s, exists e, execute X c b s = (s, Err e)).
  Proof.
    intros Ez Lz Sz. pose proof (kwargs_readable b zs Ez Lz Sz) as [K1 K2].
    split.
    - intros s E. destruct (final table missing wrong S m b s E) as (kw & _ & Ek & _). apply K1. eauto.
    - intros N s. apply unreadable. intros kw Ek. apply N, K1. eauto.
  Qed.

  (** ** beta_nl *)
  Theorem bnl_cosmology b s : o "nonlinear_mode" = Some (OStr "bnl") -> g_update_bnl c = 1%nat ->
    snd (execute X c b s) = Ok tt -> let w := p_power X (fst (fst (execute X c b s))) in
    exists a t, s_bnl table S a = Ok t /\ w "beta_nl" = KBeta table t /\
      w "z_vec" = KAxis table (b_nz a) (b_z a) /\ w "k_vec" = KAxis table (b_nk a) (b_k a) /\
      w "h0" = KVal table (Some (b_h0 a)) /\ w "omega_b" = KVal table (Some (b_ob a)) /\ w "omega_c" = KVal table (Some (b_oc a)) /\
      w "n_s" = KVal table (Some (b_ns a)) /\ w "w0" = KVal table (Some (b_w0 a)) /\
      b "cosmological_parameters" "A_s" = Some (b_As a) /\
      (exists om, b "cosmological_parameters" "omega_m" = Some (VNum om) /\ b_ol a = (1 - om)%R) /\
      exists mn mx d, w "Mmin" = num_kv table mn /\ w "Mmax" = num_kv table mx /\ w "dlog10m" = num_kv table d /\
        b_nm a = arange_len mn mx d /\ b_mass a = fun i => pow10 (arange mn d i).
  Proof.
    intros Mo U E. cbv zeta. destruct (final table missing wrong S m b s E) as (kw & ka & Ek & _ & V & Vb & _).
    set (w := p_power X (fst (fst (execute X c b s)))) in *. change (forall n v, dget kw n = Some v -> w n = v) in V.
    destruct (config_request _ _ _ _ _ H) as (R1 & _). fold c in R1.
    assert (B : mode_is c "bnl" = true) by (unfold mode_is; rewrite R1, Mo; reflexivity).
    destruct (Vb B) as (t & Et & Wt).
    assert (C : x_compute_bnl X b = Ok t).
    { revert Et. unfold bnl_step, bindM, get. fold c. rewrite U. cbn [Nat.eqb fst snd]. unfold lift, put, ret.
      rewrite Nat.mod_1_r. cbn [Nat.eqb fst snd]. destruct (x_compute_bnl X b); cbn [fst snd]; intros Q; [exact Q|discriminate Q]. }
    change (bind (read_bnl missing m b) (s_bnl table S) = Ok t) in C.
    destruct (read_bnl missing m b) as [a|] eqn:Ea; [cbn [bind] in C|discriminate C].
    exists a, t. split; [exact C|]. split; [exact Wt|].
    unfold read_kwargs in Ek. inv_binds Ek. injection Ek as <-.
    unfold read_bnl in Ea. match goal with Q : read_k _ _ _ = Ok _ |- _ => rewrite Q in Ea end. cbn [bind] in Ea.
    repeat match type of Ea with bind (cosmo _ _ ?n) _ = _ => match goal with Q : cosmo _ _ n = Ok _ |- _ => rewrite Q in Ea; cbn [bind] in Ea
      | _ => let Q := fresh "Q" in destruct (cosmo missing b n) eqn:Q; [cbn [bind] in Ea|discriminate Ea] end
      | bind (need_num _ _ _ _) _ = _ => let Q := fresh "Om" in
        match type of Ea with bind ?e _ = _ => destruct e eqn:Q; [cbn [bind] in Ea|discriminate Ea] end end.
    injection Ea as <-. cbn [b_nz b_z b_nk b_k b_h0 b_As b_ob b_oc b_ol b_ns b_w0 b_nm b_mass].
    repeat (split; [first [apply V; reflexivity | apply need_some in Q; exact Q]|]).
    split.
    - unfold need_num in Om. destruct (b "cosmological_parameters" "omega_m") as [[x| | | |]|]; try discriminate Om. injection Om as <-. eauto.
    - exists (h_min h), (h_max h), (h_dlog10m h). repeat split; apply V; reflexivity.
  Qed.
End Module.

(** ** Names *)
Lemma every_parameter : (forall n, In n spectra_parameters <-> In n (always_set ++ ["beta_nl"] ++ set_for_nonlinear ++ set_for_galaxies ++ set_for_alignment ++ never_set)%list) /\
  NoDup spectra_parameters /\ NoDup (always_set ++ ["beta_nl"] ++ set_for_nonlinear ++ set_for_galaxies ++ set_for_alignment ++ never_set).
Proof. split; [apply subset_eq; reflexivity|]. split; apply NoDup_b; reflexivity. Qed.
Theorem keywords_are_parameters table missing wrong S m b base beta nl hod al :
  shaped (module_ext table missing wrong S m) (config_of m) b base beta nl hod al ->
  let kw := x_full (module_ext table missing wrong S m) base beta nl hod al in
  NoDup (map fst kw) /\ (forall n, In n (map fst kw) <-> passed (config_of m) n) /\ (forall n, In n (map fst kw) -> In n spectra_parameters).
Proof.
  intros Sh. cbv zeta. destruct (full_names table missing wrong S m b base beta nl hod al Sh) as [N I]. split; [exact N|]. split; [exact I|].
  intros n Hn. apply I in Hn. apply every_parameter. rewrite !in_app_iff. unfold passed in Hn. cbn [In]. intuition.
Qed.
Lemma neff_not_passed c : ~ passed c "Neff".
Proof.
  assert (N : ~ In "Neff" (always_set ++ ["beta_nl"] ++ set_for_nonlinear ++ set_for_galaxies ++ set_for_alignment)%list) by (apply off_list; reflexivity).
  intros P. apply N. rewrite !in_app_iff. unfold passed in P. cbn [In]. intuition.
Qed.
