(** Lemmas about LhModel: its quantities are those of the class HOD. *)
From Coq Require Import ZArith Lia Lra FunctionalExtensionality.
From Verif Require Import Base Quad Interp FftModel PipeModel PipeSpec PipeFacts HodModel OptModel ChainModel PredModel MiniModel AupModel AupSpec LiaModel LiaSpec LhModel LhSpec LhFacts LhFacts2 LhFacts3 LhFacts4.
Open Scope R_scope.

(** ** Options *)
Lemma gives_list_get missing o n l l' : gives_list o n l -> get_array missing o n = Ok l' -> l' = l.
Proof.
  unfold get_array. intros [E|(x & [E|(k & E & ->)] & ->)]; rewrite E; intros H; now injection H.
Qed.
Lemma text_get missing wrong o n d v v' : text o n d v -> get_string missing wrong o n (Some d) = Ok v' -> v' = v.
Proof. unfold get_string. intros [E|[E ->]]; rewrite E; cbn; intros H; now injection H. Qed.
Lemma load_same rows t : load_data rows = Ok t -> t = rows /\ (2 <= List.length rows)%nat.
Proof.
  destruct rows as [|[[z lo] hi] [|r l]]; cbn; try discriminate. destruct (Rlt_dec hi lo); [discriminate|]. intros H. injection H as <-. cbn. split; [reflexivity|lia].
Qed.
Lemma setup_described missing wrong rows opens o s c' : settings_say rows o s -> lh_setup missing wrong rows opens o = Ok c' ->
  h_nbins c' = nbins s /\ h_nz c' = nz s /\ h_nobs c' = hs_nobs s /\ h_unit c' = hs_unit s /\ h_z c' = hod_z s /\ h_obs c' = hod_obs s /\
  (0 < nbins s)%nat /\ (0 < nz s)%nat /\ (0 < hs_nobs s)%nat.
Proof.
  intros (B & N & u & U & U') H. unfold lh_setup in H.
  apply bind_ok in H. destruct H as (sec & _ & H). apply bind_ok in H. destruct H as (vals & _ & H). apply bind_ok in H. destruct H as (osec & _ & H). apply bind_ok in H. destruct H as (model & _ & H).
  apply bind_ok in H. destruct H as (nobs & O & H). apply bind_ok in H. destruct H as (bias & _ & H). apply bind_ok in H. destruct H as (save & _ & H). apply bind_ok in H. destruct H as (mode & _ & H).
  apply bind_ok in H. destruct H as (zmed & _ & H). apply bind_ok in H. destruct H as (un & V & H). apply bind_ok in H. destruct H as (u1 & _ & H). apply bind_ok in H. destruct H as (u2 & _ & H).
  apply bind_ok in H. destruct H as ([[[[[obsz nb] n] z] lo] hi] & L & H). apply bind_ok in H. destruct H as (u3 & E & H). injection H as <-. cbn [h_nbins h_nz h_nobs h_unit h_z h_obs].
  apply (text_get _ _ _ _ _ _ _ U) in V. subst un.
  assert (O' : Z.to_nat nobs = hs_nobs s). { unfold get_int in O. destruct N as [N|[N M]]; rewrite N in O; cbn in O; injection O as <-; [apply Nat2Z.id|now rewrite M]. }
  assert (P : (nb * n * Z.to_nat nobs)%nat <> 0%nat) by (unfold nonempty in E; destruct (Nat.eqb_spec (nb * n * Z.to_nat nobs) 0); [discriminate|assumption]).
  assert (Q : nb = nbins s /\ n = nz s /\ z = hod_z s /\ (forall b j, lo b j = log_obs_min s b j) /\ (forall b j, hi b j = log_obs_max s b j)).
  { unfold lh_bins in L. destruct B as [(f & t & F & G & S)|(F & M & S & A1 & A2 & A3 & A4 & A5)]; unfold OptModel.has_value in L; rewrite F in L.
    - unfold get_string in L. rewrite F in L. cbn [bind] in L. rewrite G in L. cbn [bind] in L. apply bind_ok in L. destruct L as (t' & T & L). apply load_same in T. destruct T as [-> T].
      injection L as <- <- <- <- <- <-. unfold nbins, nz, hod_z, log_obs_min, log_obs_max. rewrite S. repeat split.
    - replace (match o "mass_lim"%string with Some _ => true | None => false end && match o "mass_lim_low"%string with Some _ => true | None => false end)%bool with false in L
        by (destruct M as [->| ->]; [reflexivity|destruct (o "mass_lim"%string); reflexivity]).
      apply bind_ok in L. destruct L as (l1 & L1 & L). apply bind_ok in L. destruct L as (l2 & L2 & L). apply bind_ok in L. destruct L as (l3 & L3 & L). apply bind_ok in L. destruct L as (l4 & L4 & L).
      apply (gives_list_get _ _ _ _ _ A1) in L1. apply (gives_list_get _ _ _ _ _ A2) in L2. apply (gives_list_get _ _ _ _ _ A3) in L3. apply (gives_list_get _ _ _ _ _ A4) in L4. subst.
      apply bind_ok in L. destruct L as (k & L5 & L). unfold get_count in L5. rewrite A5 in L5. destruct (Z.ltb_spec (Z.of_nat (hs_nz s)) 0); [lia|]. injection L5 as <-. rewrite Nat2Z.id in L.
      destruct (Nat.eqb_spec (List.length (hs_obs_max s)) (List.length (hs_obs_min s))) as [Q1|]; [|discriminate].
      destruct (Nat.eqb_spec (List.length (hs_zmin s)) (List.length (hs_obs_min s))) as [Q2|]; [|discriminate].
      destruct (Nat.eqb_spec (List.length (hs_zmax s)) (List.length (hs_obs_min s))) as [Q3|]; [|discriminate]. cbn [andb] in L.
      injection L as <- <- <- <- <- <-. unfold nbins, nz, hod_z, log_obs_min, log_obs_max. rewrite S. repeat split.
      apply functional_extensionality. intros b. apply functional_extensionality. intros j. rewrite combine_nth by congruence. unfold nz. now rewrite S. }
  destruct Q as (-> & -> & -> & Q4 & Q5). rewrite O' in *. repeat split; try lia; [now rewrite U'|].
  apply functional_extensionality. intros b. apply functional_extensionality. intros j. unfold hod_obs. apply functional_extensionality. intros k. now rewrite Q4, Q5.
Qed.
Lemma setup_names missing wrong rows opens o c' : lh_setup missing wrong rows opens o = Ok c' ->
  (forall t, o "hod_section_name"%string = Some (OStr t) -> h_section c' = lower t) /\
  (forall t, text o "observable_section_name" "stellar_mass_function" t -> h_obssec c' = lower t) /\ (forall t, text o "values_name" "hod_parameters" t -> h_values c' = lower t) /\
  (forall t, text o "hod_model" "Cacciato" t -> h_model c' = t) /\
  (forall v, o "do_galaxy_linear_bias"%string = Some (OBool v) \/ (o "do_galaxy_linear_bias"%string = None /\ v = false) -> h_bias c' = v) /\
  (forall v, o "save_observable"%string = Some (OBool v) \/ (o "save_observable"%string = None /\ v = true) -> h_save c' = v) /\
  (forall t, text o "observable_mode" "obs_z" t -> h_mode c' = t) /\
  (forall x, gives o "z_median" x \/ (o "z_median"%string = None /\ x = 1 / 10) -> h_zmed c' = x) /\
  (h_unit c' = "1/h"%string \/ h_unit c' = "1/h^2"%string) /\ (h_model c' = "Cacciato"%string \/ h_save c' = false) /\
  h_obsz c' = OptModel.has_value o "observables_file".
Proof.
  intros H. unfold lh_setup in H.
  apply bind_ok in H. destruct H as (sec & S1 & H). apply bind_ok in H. destruct H as (vals & S2 & H). apply bind_ok in H. destruct H as (osec & S3 & H). apply bind_ok in H. destruct H as (model & S4 & H).
  apply bind_ok in H. destruct H as (nobs & _ & H). apply bind_ok in H. destruct H as (bias & S5 & H). apply bind_ok in H. destruct H as (save & S6 & H). apply bind_ok in H. destruct H as (mode & S7 & H).
  apply bind_ok in H. destruct H as (zmed & S8 & H). apply bind_ok in H. destruct H as (un & _ & H). apply bind_ok in H. destruct H as (u1 & S9 & H). apply bind_ok in H. destruct H as (u2 & S10 & H).
  apply bind_ok in H. destruct H as ([[[[[obsz nb] n] z] lo] hi] & L & H). apply bind_ok in H. destruct H as (u3 & _ & H). injection H as <-.
  cbn [h_section h_obssec h_values h_model h_bias h_save h_mode h_zmed h_unit h_obsz].
  split; [intros t E; unfold get_string in S1; rewrite E in S1; injection S1 as <-; reflexivity|].
  split; [intros t E; now rewrite (text_get _ _ _ _ _ _ _ E S3)|]. split; [intros t E; now rewrite (text_get _ _ _ _ _ _ _ E S2)|]. split; [intros t E; exact (text_get _ _ _ _ _ _ _ E S4)|].
  split; [intros v [E|[E ->]]; unfold get_bool in S5; rewrite E in S5; cbn in S5; now injection S5|].
  split; [intros v [E|[E ->]]; unfold get_bool in S6; rewrite E in S6; cbn in S6; now injection S6|].
  split; [intros t E; exact (text_get _ _ _ _ _ _ _ E S7)|].
  split; [intros x [[E|(k & E & ->)]|[E ->]]; unfold get_double in S8; rewrite E in S8; cbn in S8; now injection S8|].
  split. { destruct (existsb _ _) eqn:X; [|discriminate]. apply existsb_exists in X. destruct X as (y & I & X). apply String.eqb_eq in X. rewrite X. destruct I as [<-|[<-|[]]]; [now left|now right]. }
  split. { destruct (String.eqb_spec model "Cacciato"); [now left|]. destruct save; [discriminate|now right]. }
  unfold lh_bins in L. destruct (OptModel.has_value o "observables_file").
  - apply bind_ok in L. destruct L as (f & _ & L). apply bind_ok in L. destruct L as (r & _ & L). apply bind_ok in L. destruct L as (t & _ & L). now injection L.
  - destruct (OptModel.has_value o "mass_lim" && OptModel.has_value o "mass_lim_low")%bool.
    + apply bind_ok in L. destruct L as (f & _ & L). apply bind_ok in L. destruct L as (f' & _ & L). apply bind_ok in L. destruct L as (z0 & _ & L). apply bind_ok in L. destruct L as (z1 & _ & L).
      apply bind_ok in L. destruct L as (k & _ & L). apply bind_ok in L. destruct L as (v & _ & L). discriminate.
    + apply bind_ok in L. destruct L as (f & _ & L). apply bind_ok in L. destruct L as (f' & _ & L). apply bind_ok in L. destruct L as (z0 & _ & L). apply bind_ok in L. destruct L as (z1 & _ & L).
      apply bind_ok in L. destruct L as (k & _ & L). match type of L with (if ?x then _ else _) = _ => destruct x end; [now injection L|discriminate].
Qed.

(** ** The block *)
Lemma reads_num b s n x : reads b s n x -> block_num b s n = Ok x.
Proof. unfold block_num. intros [->|(k & -> & ->)]; reflexivity. Qed.
Lemma num_reads b s n x : block_num b s n = Ok x -> reads b s n x.
Proof. unfold block_num. intros H. destruct (b s n) as [[k|y|t|l|l]|] eqn:E; try discriminate; injection H as <-; [right; now exists k|now left]. Qed.
Lemma reads_same b s n x y : reads b s n x -> reads b s n y -> x = y.
Proof. intros H K. apply reads_num in H. apply reads_num in K. congruence. Qed.
Lemma reads_has b s n x : reads b s n x -> LiaModel.has_value b s n = true.
Proof. unfold LiaModel.has_value. intros [->|(k & -> & _)]; reflexivity. Qed.
Lemma params_read c nb b l kw : NoDup l -> lh_params c nb l b = Ok kw -> forall p, In p l -> reads b (h_values c) (param_name c nb p) (kw p).
Proof.
  intros D. revert kw. induction D as [|p l N D IH]; intros kw H q I; [contradiction|]. cbn [lh_params] in H. apply bind_ok in H. destruct H as (v & V & H). apply bind_ok in H. destruct H as (kw' & K & H). injection H as <-.
  destruct (String.eqb_spec q p) as [->|E].
  - destruct (LiaModel.has_value b (h_values c) (param_name c nb p)); [now apply num_reads|discriminate].
  - destruct I as [->|I]; [contradiction|]. now apply IH.
Qed.
Lemma params_run c nb b l : (forall p, In p l -> exists x, reads b (h_values c) (param_name c nb p) x) -> exists kw, lh_params c nb l b = Ok kw.
Proof.
  induction l as [|p l IH]; intros H; [now eexists|]. cbn [lh_params]. destruct (H p (or_introl eq_refl)) as (x & X). rewrite (reads_has _ _ _ _ X), (reads_num _ _ _ _ X). cbn [bind].
  destruct IH as (kw & ->); [intros; apply H; now right|]. now eexists.
Qed.
Lemma assembly_reads c b n v w : may_read b (h_values c) n v -> lh_assembly c b n = Ok w -> w = v.
Proof.
  unfold lh_assembly, may_read. destruct v as [x|].
  - intros X. rewrite (reads_has _ _ _ _ X), (reads_num _ _ _ _ X). cbn. intros H. now injection H.
  - intros X. unfold LiaModel.has_value. rewrite X. intros H. now injection H.
Qed.
Lemma assembly_run c b n v : may_read b (h_values c) n v -> lh_assembly c b n = Ok v.
Proof.
  unfold lh_assembly, may_read. destruct v as [x|].
  - intros X. now rewrite (reads_has _ _ _ _ X), (reads_num _ _ _ _ X).
  - intros X. unfold LiaModel.has_value. now rewrite X.
Qed.
Definition assembly_of (md : hod_model) : option R * option R :=
  match md with
  | Cacciato p => (ca_A_cen p, ca_A_sat p) | Simple p | Zehavi p => (si_A_cen p, si_A_sat p) | Zheng p => (zh_A_cen p, zh_A_sat p) | Zhai p => (zi_A_cen p, zi_A_sat p)
  end.
Lemma legacy_nodup m l : legacy_parameters m = Some l -> NoDup l.
Proof.
  unfold legacy_parameters. intros H. destruct (String.eqb m "Zheng"); [|destruct (String.eqb m "Zhai"); [|destruct (String.eqb m "Cacciato"); [|discriminate]]]; injection H as <-;
    repeat (constructor; [intros I; repeat (destruct I as [I|I]; [discriminate I|]); contradiction|]); constructor.
Qed.

(** ** The classes *)
Section Same.
  Variables (missing wrong : string) (rows : string -> res (list (R * R * R))) (opens : string -> res unit).
  Variables (o : options) (b : dblock) (sec osec vals : string) (bias : bool) (c : hod_ctx) (md : hod_model) (c' : hconfig).
  Hypothesis Says : hod_says rows o b sec osec vals bias c md.
  Hypothesis Set_ : lh_setup missing wrong rows opens o = Ok c'.
  Lemma is_sec : h_section c' = sec.
  Proof. destruct Says as (_ & (t & T & ->) & _). exact (proj1 (setup_names _ _ _ _ _ _ Set_) t T). Qed.
  Lemma is_osec : h_obssec c' = osec.
  Proof. destruct Says as (_ & _ & (t & T & ->) & _). exact (proj1 (proj2 (setup_names _ _ _ _ _ _ Set_)) t T). Qed.
  Lemma is_vals : h_values c' = vals.
  Proof. destruct Says as (_ & _ & _ & (t & T & ->) & _). exact (proj1 (proj2 (proj2 (setup_names _ _ _ _ _ _ Set_))) t T). Qed.
  Lemma is_bias : h_bias c' = bias.
  Proof. destruct Says as (_ & _ & _ & _ & B & _). exact (proj1 (proj2 (proj2 (proj2 (proj2 (setup_names _ _ _ _ _ _ Set_))))) bias B). Qed.
  Lemma is_model : model_says b vals (h_model c') (nbins (c_set c)) md.
  Proof. destruct Says as (_ & _ & _ & _ & _ & (n & T & M) & _). now rewrite (proj1 (proj2 (proj2 (proj2 (setup_names _ _ _ _ _ _ Set_)))) n T). Qed.
  Lemma is_set : h_nbins c' = nbins (c_set c) /\ h_nz c' = nz (c_set c) /\ h_nobs c' = hs_nobs (c_set c) /\ h_unit c' = hs_unit (c_set c) /\ h_z c' = hod_z (c_set c) /\ h_obs c' = hod_obs (c_set c) /\
    (0 < nbins (c_set c))%nat /\ (0 < nz (c_set c))%nat /\ (0 < hs_nobs (c_set c))%nat.
  Proof. destruct Says as (S & _). exact (setup_described _ _ _ _ _ _ _ S Set_). Qed.
  Lemma has_names : exists names, legacy_parameters (h_model c') = Some names.
  Proof. pose proof is_model as M. destruct md; cbn in M; try contradiction; destruct M as (-> & _); now eexists. Qed.
  Lemma names_cacciato p : md = Cacciato p -> h_model c' = "Cacciato"%string.
  Proof. intros E. pose proof is_model as M. rewrite E in M. now destruct M. Qed.
  Lemma is_halos : exists mass z dn, lh_input c' b = Ok {| i_dn := dn; i_mass := mass; i_z := z; i_Acen := fst (assembly_of md); i_Asat := snd (assembly_of md) |} /\
    c_nm c = List.length mass /\ c_mass c = at_ mass /\ c_nzv c = List.length z /\ c_zvec c = at_ z /\ c_dndlnm c = entry dn /\
    (bias = true -> exists hb, array b "halobias" "z" = Ok z /\ table_at b "halobias" "b_hb" = Ok hb /\ c_bias c = entry hb).
  Proof.
    destruct Says as (_ & _ & _ & _ & _ & _ & ((mass & z & dn & E1 & E2 & E3 & Q1 & Q2 & Q3 & Q4 & Q5 & Q6) & _)). exists mass, z, dn.
    unfold lh_input, table_at, array. rewrite E1, E2, E3. cbn [bind]. split; [|repeat split; try assumption].
    - assert (A : may_read b vals "A_cen" (fst (assembly_of md)) /\ may_read b vals "A_sat" (snd (assembly_of md))) by (pose proof is_model as M; destruct md; cbn in M |- *; tauto).
      rewrite <- is_vals in A. destruct A as [A1 A2]. now rewrite (assembly_run _ _ _ _ A1), (assembly_run _ _ _ _ A2).
    - intros T. destruct (Q6 T) as (hb & B1 & B2 & B3). exists hb. rewrite B1, B2. repeat split. exact B3.
  Qed.
  Lemma is_factor h : h_factor c' b = Ok h -> forall x, unit_scale c x = x * h.
  Proof.
    destruct Says as (_ & _ & _ & _ & _ & _ & (_ & U)). destruct is_set as (_ & _ & _ & Q & _). unfold h_factor, unit_scale, unit_h2. rewrite Q. destruct (String.eqb_spec (hs_unit (c_set c)) "1/h^2") as [E|E].
    - rewrite (reads_num _ _ _ _ (U E)). intros H x. now injection H as <-.
    - intros H x. injection H as <-. lra.
  Qed.
  Lemma factor_runs : exists h, h_factor c' b = Ok h.
  Proof.
    destruct Says as (_ & _ & _ & _ & _ & _ & (_ & U)). destruct is_set as (_ & _ & _ & Q & _). unfold h_factor. rewrite Q. destruct (String.eqb_spec (hs_unit (c_set c)) "1/h^2") as [E|E]; [|now eexists].
    rewrite (reads_num _ _ _ _ (U E)). now eexists.
  Qed.
  Section Bins.
    Variables (names : list string) (nb : nat) (kw : string -> R) (mass z : list R) (dn : list (list R)).
    Hypothesis Nm : legacy_parameters (h_model c') = Some names.
    Hypothesis Lt : (nb < nbins (c_set c))%nat.
    Hypothesis Kw : lh_params c' nb names b = Ok kw.
    Hypotheses (Q1 : c_nm c = List.length mass) (Q2 : c_mass c = at_ mass) (Q3 : c_nzv c = List.length z) (Q4 : c_zvec c = at_ z) (Q5 : c_dndlnm c = entry dn).
    Let i := {| i_dn := dn; i_mass := mass; i_z := z; i_Acen := fst (assembly_of md); i_Asat := snd (assembly_of md) |}.
    Lemma kw_scalar n v : h_model c' = "Cacciato"%string -> In n names -> reads b vals n v -> kw n = v.
    Proof.
      intros M I V. pose proof (params_read c' nb b names kw (legacy_nodup _ _ Nm) Kw n I) as K. unfold param_name in K. rewrite M, String.eqb_refl, is_vals in K. exact (reads_same _ _ _ _ _ K V).
    Qed.
    Lemma kw_bin n v : h_model c' <> "Cacciato"%string -> In n names -> reads b vals (PipeSpec.bin_name n (nbins (c_set c)) nb) v -> kw n = v.
    Proof.
      intros M I V. pose proof (params_read c' nb b names kw (legacy_nodup _ _ Nm) Kw n I) as K. unfold param_name in K. destruct (String.eqb_spec (h_model c') "Cacciato"); [contradiction|].
      unfold lh_suffix in K. rewrite suffix_name, is_vals, (proj1 is_set) in K. exact (reads_same _ _ _ _ _ K V).
    Qed.
    Lemma par_cacciato p n zz no obs : md = Cacciato p -> lh_cacciato (lh_new c' i kw n zz no obs) = p.
    Proof.
      intros E. pose proof is_model as M. rewrite E in M. destruct M as (N & M). pose proof Nm as Nm'. rewrite N in Nm'. cbn in Nm'. injection Nm' as Nm'.
      assert (K : forall n v, reads b vals n v -> In n ["log10_obs_norm_c"; "log10_m_ch"; "g1"; "g2"; "sigma_log10_O_c"; "norm_s"; "pivot"; "alpha_s"; "beta_s"; "b0"; "b1"; "b2"]%string -> kw n = v)
        by (intros; apply kw_scalar; [exact N|now rewrite <- Nm'|assumption]).
      destruct M as (M1 & M2 & M3 & M4 & M5 & M6 & M7 & M8 & M9 & M10 & M11 & M12 & _).
      unfold lh_cacciato, lh_new, i. rewrite E. cbn [lo_kw lo_Acen lo_Asat i_Acen i_Asat assembly_of fst snd].
      rewrite (K _ _ M1 ltac:(cbn; tauto)), (K _ _ M2 ltac:(cbn; tauto)), (K _ _ M3 ltac:(cbn; tauto)), (K _ _ M4 ltac:(cbn; tauto)), (K _ _ M5 ltac:(cbn; tauto)), (K _ _ M6 ltac:(cbn; tauto)),
        (K _ _ M7 ltac:(cbn; tauto)), (K _ _ M8 ltac:(cbn; tauto)), (K _ _ M9 ltac:(cbn; tauto)), (K _ _ M10 ltac:(cbn; tauto)), (K _ _ M11 ltac:(cbn; tauto)), (K _ _ M12 ltac:(cbn; tauto)).
      now destruct p.
    Qed.
    Let x := lh_bin c' i kw nb.
    Lemma same_cen : lh_cen x = compute_hod_cen c md nb.
    Proof.
      apply functional_extensionality. intros j. apply functional_extensionality. intros m. destruct is_set as (_ & _ & S3 & _ & _ & S6 & _). pose proof is_model as M.
      assert (A : lo_Acen x = fst (assembly_of md)) by reflexivity. unfold lh_cen. rewrite A. change (lo_model x) with (h_model c'). change (lo_mass x) with (at_ mass). change (lo_kw x) with kw.
      pose proof (fun p => par_cacciato p (h_nz c') (h_z c' nb) (h_nobs c') (h_obs c' nb)) as Pc. fold (lh_bin c' i kw nb) in Pc. fold x in Pc.
      change (lo_nobs x) with (h_nobs c'). change (lo_obs x) with (h_obs c' nb).
      pose proof kw_bin as Kb. destruct md as [p|p|p|p|p] eqn:E; cbn in M; try contradiction.
      - destruct M as (N & _). rewrite N, (Pc p eq_refl), S3, S6. cbn [String.eqb Ascii.eqb Bool.eqb fst assembly_of compute_hod_cen]. unfold cacciato_cen, COF_cen. now rewrite Q2.
      - destruct M as (N & M1 & M2 & _). rewrite N. cbn [String.eqb Ascii.eqb Bool.eqb fst assembly_of compute_hod_cen]. rewrite Q2. pose proof Nm as Nm'. rewrite N in Nm'. injection Nm' as <-.
        rewrite (Kb "sigma" (bin_par (zh_sigma p) nb)), (Kb "log10_Mmin" (bin_par (zh_log10_Mmin p) nb)); try (rewrite N; discriminate); try (cbn; tauto); auto.
      - destruct M as (N & M1 & M2 & _). rewrite N. cbn [String.eqb Ascii.eqb Bool.eqb fst assembly_of compute_hod_cen]. rewrite Q2. pose proof Nm as Nm'. rewrite N in Nm'. injection Nm' as <-.
        rewrite (Kb "sigma" (bin_par (zi_sigma p) nb)), (Kb "log10_Mmin" (bin_par (zi_log10_Mmin p) nb)); try (rewrite N; discriminate); try (cbn; tauto); auto.
    Qed.
    Lemma same_sat : lh_sat x = compute_hod_sat c md nb.
    Proof.
      apply functional_extensionality. intros j. apply functional_extensionality. intros m. destruct is_set as (_ & _ & S3 & _ & _ & S6 & _). pose proof is_model as M.
      assert (A : lo_Asat x = snd (assembly_of md)) by reflexivity. unfold lh_sat. rewrite A. change (lo_model x) with (h_model c'). change (lo_mass x) with (at_ mass). change (lo_kw x) with kw.
      pose proof (fun p => par_cacciato p (h_nz c') (h_z c' nb) (h_nobs c') (h_obs c' nb)) as Pc. fold (lh_bin c' i kw nb) in Pc. fold x in Pc.
      change (lo_nobs x) with (h_nobs c'). change (lo_obs x) with (h_obs c' nb).
      pose proof kw_bin as Kb. destruct md as [p|p|p|p|p] eqn:E; cbn in M; try contradiction.
      - destruct M as (N & _). rewrite N, (Pc p eq_refl), S3, S6. cbn [String.eqb Ascii.eqb Bool.eqb snd assembly_of compute_hod_sat]. unfold cacciato_sat, COF_sat. now rewrite Q2.
      - destruct M as (N & M1 & M2 & M3 & M4 & M5 & _). rewrite N. cbn [String.eqb Ascii.eqb Bool.eqb snd assembly_of compute_hod_sat]. rewrite Q2. pose proof Nm as Nm'. rewrite N in Nm'. injection Nm' as <-.
        rewrite (Kb "log10_M0" (bin_par (zh_log10_M0 p) nb)), (Kb "log10_M1" (bin_par (zh_log10_M1 p) nb)), (Kb "alpha" (bin_par (zh_alpha p) nb)); try (rewrite N; discriminate); try (cbn; tauto); auto.
      - destruct M as (N & M1 & M2 & M3 & M4 & M5 & _). rewrite N. cbn [String.eqb Ascii.eqb Bool.eqb snd assembly_of compute_hod_sat]. rewrite Q2. pose proof Nm as Nm'. rewrite N in Nm'. injection Nm' as <-.
        rewrite (Kb "log10_Msat" (bin_par (zi_log10_Msat p) nb)), (Kb "log10_Mcut" (bin_par (zi_log10_Mcut p) nb)), (Kb "alpha" (bin_par (zi_alpha p) nb)); try (rewrite N; discriminate); try (cbn; tauto); auto.
    Qed.
    Lemma same_tot : lh_tot x = compute_hod c md nb.
    Proof. apply functional_extensionality. intros j. apply functional_extensionality. intros m. unfold lh_tot, compute_hod. now rewrite same_cen, same_sat. Qed.
    Lemma same_dn j : lo_dndlnm x j = dndlnm_int c nb j.
    Proof. destruct is_set as (_ & _ & _ & _ & S5 & _). unfold dndlnm_int. rewrite Q3, Q4, Q5, <- S5. reflexivity. Qed.
    Lemma same_density (f : A3) j : lh_density x (f nb) j = mass_integral c f nb j.
    Proof. unfold lh_density, mass_integral. rewrite same_dn, Q1, Q2. reflexivity. Qed.
    Lemma same_mean (f : A3) j : lh_mass x (f nb) j = mean_mass_integral c f nb j.
    Proof. unfold lh_mass, mean_mass_integral. rewrite same_dn, Q1, Q2. reflexivity. Qed.
    Lemma same_bias hb (f : A3) t j : c_bias c = entry hb -> lh_bias x (fun j => at_z z hb (h_z c' nb j)) (f nb) j / t nb j = bias_integral c t f nb j.
    Proof. intros H. destruct is_set as (_ & _ & _ & _ & S5 & _). unfold lh_bias, bias_integral, halo_bias_int. rewrite same_dn, Q1, Q2, Q3, Q4, H, S5. reflexivity. Qed.
    Lemma same_fstar p j m : md = Cacciato p -> lh_fstar x j m = star_frac c (COF c p) nb j m.
    Proof.
      intros E. destruct is_set as (_ & _ & S3 & _ & _ & S6 & _). unfold lh_fstar, star_frac, COF. rewrite Q2, <- S3, <- S6.
      pose proof (par_cacciato p (h_nz c') (h_z c' nb) (h_nobs c') (h_obs c' nb) E) as Pc. fold (lh_bin c' i kw nb) in Pc. fold x in Pc. rewrite Pc. reflexivity.
    Qed.
    Lemma same_obs_func f p j k : md = Cacciato p -> lh_obs_func x f j k = obs_func_of c (fun b j m o => f p (hod_obs (c_set c) b j o) (c_mass c m)) nb j k.
    Proof.
      intros E. destruct is_set as (_ & _ & S3 & _ & _ & S6 & _). unfold lh_obs_func, obs_func_of. rewrite same_dn, Q1, Q2, <- S6.
      pose proof (par_cacciato p (h_nz c') (h_z c' nb) (h_nobs c') (h_obs c' nb) E) as Pc. fold (lh_bin c' i kw nb) in Pc. fold x in Pc. rewrite Pc. reflexivity.
    Qed.
  End Bins.
End Same.
Lemma holds_grid n m f g : (forall j k, (j < n)%nat -> (k < m)%nat -> f j k = g j k) -> holds_table (Some (BTab (grid2 n m f))) n m g.
Proof.
  intros H. exists (grid2 n m f). split; [reflexivity|]. unfold grid2, row. split; [now rewrite map_length, seq_length|]. intros j J.
  assert (E : nth j (map (fun j0 => map (f j0) (seq 0 m)) (seq 0 n)) [] = map (f j) (seq 0 m)).
  { rewrite nth_indep with (d' := (fun j0 => map (f j0) (seq 0 m)) 0%nat) by (now rewrite map_length, seq_length). rewrite (map_nth (fun j0 => map (f j0) (seq 0 m))). now rewrite seq_nth. }
  rewrite E. split; [now rewrite map_length, seq_length|]. intros k K.
  rewrite nth_indep with (d' := f j 0%nat) by (now rewrite map_length, seq_length). rewrite (map_nth (f j)), seq_nth by exact K. now apply H.
Qed.
Lemma holds_row n f g : (forall j, (j < n)%nat -> f j = g j) -> holds_array (Some (BArr (row n f))) n g.
Proof.
  intros H. exists (row n f). split; [reflexivity|]. unfold row. split; [now rewrite map_length, seq_length|]. intros j J.
  rewrite nth_indep with (d' := f 0%nat) by (now rewrite map_length, seq_length). rewrite (map_nth f), seq_nth by exact J. now apply H.
Qed.
