(** Proofs about the keyword arguments: values, tables, readable blocks. *)
From Coq Require Import ZArith FunctionalExtensionality Lia.
From Verif Require Import Base Spec Interp QuadFacts InterpFacts HodModel PkModel AddModel AddSpec PipeModel PipeSpec PipeFacts PipeFacts2 PipeFacts3 PipeFacts4 PipeFacts5 PipeFacts6
  OptModel OptSpec BaseFacts OptFacts OptFacts2 OptFacts3 OptFacts4 OptFacts5 KwModel KwSpec KwFacts KwFacts2 KwFacts3.
Open Scope string_scope.

Section Values.
  Variables (table : Type) (missing wrong : string) (S : spectra table) (o : options) (darkemu : bool) (m : module_config).
  Hypothesis H : setup missing wrong o darkemu = Ok m.
  Notation X := (module_ext table missing wrong S m).
  Let c := config_of m.
  Lemma need_some b s n v : need missing b s n = Ok v -> b s n = Some v.
  Proof. unfold need. destruct (b s n); intros E; [injection E as ->; reflexivity|discriminate E]. Qed.
  Lemma double_number b s n d x : double wrong b s n d = Ok x -> x = number b s n d.
  Proof. unfold double, number. destruct (b s n) as [[]|]; intros E; try discriminate E; injection E as <-; reflexivity. Qed.
  Lemma mode_value : q_mode (m_request m) = optional (o "nonlinear_mode") None.
  Proof.
    destruct (setup_parts _ _ _ _ _ H) as (E & _ & _). unfold setup_pipeline_parameters in E. inv_binds E. injection E as <-. cbn [q_mode].
    match goal with H : string_or_none _ _ _ "nonlinear_mode" _ = Ok _ |- _ => apply val_optional in H; exact H end.
  Qed.
  Lemma grid_values : h_min (m_hmf m) = num (o "log_mass_min") 9 /\ h_max (m_hmf m) = num (o "log_mass_max") 16 /\
    h_dlog10m (m_hmf m) = ((num (o "log_mass_max") 16 - num (o "log_mass_min") 9) / IZR (int (o "nmass") 200))%R /\
    h_lnk_min (m_hmf m) = ln (1/100000000) /\ h_lnk_max (m_hmf m) = ln 100000000 /\ h_dlnk (m_hmf m) = (1/20)%R.
  Proof.
    destruct (setup_parts _ _ _ _ _ H) as (_ & E & _). destruct (hmf_values _ _ _ _ E) as (E1 & E2 & E3 & _). rewrite E3, E1, E2.
    unfold setup_hmf_config in E. inv_binds E. injection E as <-. repeat split.
  Qed.
  Ltac value V := match goal with |- ?w ?n = ?v => apply (V n v); reflexivity end.
  Theorem values b s : snd (execute X c b s) = Ok tt -> let w := p_power X (fst (fst (execute X c b s))) in
    Forall (fun p => w (fst p) = num_kv table (num (o (fst (snd p))) (snd (snd p)))) option_numbers /\
    Forall (fun p => w (fst p) = str_kv table (text (o (fst (snd p))) (snd (snd p)))) option_texts /\
    Forall (fun p => w (fst p) = KVal table (optional (o (fst (snd p))) (snd (snd p)))) option_optional /\
    Forall (fun p => exists v, b (fst (snd p)) (snd (snd p)) = Some v /\ w (fst p) = KVal table (Some v)) block_values /\
    Forall (fun p => w (fst p) = num_kv table (number b (fst (fst (snd p))) (snd (fst (snd p))) (snd (snd p)))) (block_numbers (profile_section o)) /\
    w "mb" = num_kv table (pow10 (number b "halo_model_parameters" "m_b" (1387/100))) /\
    w "dlog10m" = num_kv table ((num (o "log_mass_max") 16 - num (o "log_mass_min") 9) / IZR (int (o "nmass") 200)) /\
    (exists d, w "dewiggle" = KBool table d /\ bool_is d o "dewiggle") /\
    w "lnk_min" = num_kv table (ln (1/100000000)) /\ w "lnk_max" = num_kv table (ln 100000000) /\ w "dlnk" = num_kv table (1/20) /\
    w "transfer_model" = str_kv table "FromArray" /\ w "growth_model" = str_kv table "FromArray" /\
    (exists k t, b "matter_power_transfer_func" "k_h" = Some k /\ b "matter_power_transfer_func" "t_k" = Some t /\ w "transfer_params" = KPair table k t) /\
    (exists z d, b "growth_parameters" "z" = Some z /\ b "growth_parameters" "d_z" = Some d /\ w "growth_params" = KPair table z d).
  Proof.
    intros E. cbv zeta. destruct (final table missing wrong S m b s E) as (kw & ka & Ek & _ & V & _).
    set (w := p_power X (fst (fst (execute X c b s)))) in *. change (forall n v, dget kw n = Some v -> w n = v) in V. clearbody w. clear E.
    destruct (config_ingredients _ _ _ _ _ H) as (I1 & I2 & I3 & I4 & I5 & I6 & I7 & I8 & I9 & I10).
    destruct (config_request _ _ _ _ _ H) as (_ & _ & Q1 & Q2 & _ & _ & Q3 & Q4 & _).
    destruct grid_values as (G1 & G2 & G3 & G4 & G5 & G6). pose proof mode_value as Q5.
    unfold read_kwargs in Ek. inv_binds Ek. injection Ek as <-.
    repeat match goal with
      | H : cosmo _ _ _ = Ok _ |- _ => apply need_some in H
      | H : need _ _ _ _ = Ok _ |- _ => apply need_some in H
      | H : double _ _ _ _ _ = Ok _ |- _ => apply double_number in H
      end. subst.
    unfold option_numbers, option_texts, option_optional, block_values, block_numbers, profile_section.
    rewrite I1, I2, I3, I4, I5, I6, I7, I8, I9, I10, Q1, Q2, Q3, G1, G2, G3, G4, G5, G6, Q5 in V.
    repeat split; repeat constructor; cbn [fst snd]; try (value V); try (eexists; split; [eassumption|value V]).
    - exists (q_dewiggle (m_request m)). split; [value V|exact Q4].
    - do 2 eexists. split; [eassumption|]. split; [eassumption|]. value V.
    - do 2 eexists. split; [eassumption|]. split; [eassumption|]. value V.
  Qed.
End Values.

(** ** Galaxies and alignment *)
Section Values2.
  Variables (table : Type) (missing wrong : string) (S : spectra table) (o : options) (darkemu : bool) (m : module_config).
  Hypothesis H : setup missing wrong o darkemu = Ok m.
  Notation X := (module_ext table missing wrong S m).
  Let c := config_of m.
  Theorem galaxy_values b s : snd (execute X c b s) = Ok tt -> let w := p_power X (fst (fst (execute X c b s))) in
    (wants_galaxies o \/ wants_alignment o ->
       w "poisson_model" = str_kv table (text (o "poisson_type") "") /\ w "hod_model" = str_kv table (text (o "hod_model") "Cacciato") /\
       (exists v, w "pointmass" = KBool table v /\ bool_is v o "point_mass") /\
       (exists v, w "compute_observable" = KBool table v /\ bool_is v o "save_observable") /\
       (flag o "save_observable" -> exists d, w "obs_settings" = KSettings table d /\ sample_is o "smf" d) /\
       (exists d, w "poisson_params" = KPoisson table d /\ poisson_params missing b (text (o "poisson_type") "") = Ok d) /\
       (exists d, w "hod_params" = KHod table d /\ hod_params b (g_hod_values c) (g_hod_model c) (g_nbins c) = Ok d)) /\
    (wants_galaxies o -> ~ wants_alignment o -> exists d, w "hod_settings" = KSettings table d /\ sample_is o "hod" d) /\
    (wants_alignment o ->
       w "one_halo_ktrunc_ia" = KVal table (optional (o "one_halo_ktrunc_ia") (Some 4%R)) /\
       w "two_halo_ktrunc_ia" = KVal table (optional (o "two_halo_ktrunc_ia") (Some 6%R)) /\
       w "t_eff" = num_kv table (number b "pk_parameters" "linear_fraction_fortuna" 0) /\
       exists d, w "align_params" = KAlign table d /\ align_params b (g_pop1 c) (g_central c) (g_satellite c) = Ok d).
  Proof.
    intros E. cbv zeta. destruct (final table missing wrong S m b s E) as (kw & ka & _ & Ea & _ & _ & _ & Vg & Va).
    set (w := p_power X (fst (fst (execute X c b s)))) in *.
    destruct (setup_flags _ _ _ _ _ H) as (_ & _ & _ & _ & _ & _ & _ & _ & FG & FA). fold c in FG, FA.
    destruct (config_request _ _ _ _ _ H) as (_ & R1 & _ & _ & R2 & R3 & _ & _ & R4).
    destruct (config_hod _ _ _ _ _ H) as (D1 & _ & _ & D2 & D3 & D4 & _). fold c in R1, D1, D2, D3, D4.
    split; [|split].
    - intros W. assert (B : (galaxy c || alignment c)%bool = true) by (apply orb_true_iff; rewrite FG, FA; exact W).
      destruct (Vg B) as (pp & hp & P1 & P2 & V & _). change (forall n v, n <> "hod_settings" -> dget (galaxy_kwargs table m pp hp (g_settings c)) n = Some v -> w n = v) in V.
      change (poisson_params missing b (g_poisson c) = Ok pp) in P1. change (hod_params b (g_hod_values c) (g_hod_model c) (g_nbins c) = Ok hp) in P2.
      clearbody w. rewrite <- D1, <- R1. 
      split; [apply V; [discriminate|reflexivity]|]. split; [apply V; [discriminate|reflexivity]|].
      split; [eexists; split; [apply V; [discriminate|reflexivity]|exact R4]|].
      split; [eexists; split; [apply V; [discriminate|reflexivity]|exact D2]|].
      split; [intros F; eexists; split; [apply V; [discriminate|reflexivity]|apply D3, F]|].
      split; [eexists; split; [apply V; [discriminate|reflexivity]|exact P1]|].
      eexists; split; [apply V; [discriminate|reflexivity]|exact P2].
    - intros W NA. assert (A : alignment c = false) by (destruct (alignment c); [exfalso; apply NA, FA; reflexivity|reflexivity]).
      assert (B : (galaxy c || alignment c)%bool = true) by (apply orb_true_iff; left; apply FG, W).
      destruct (Vg B) as (pp & hp & _ & _ & _ & V). exists (g_settings c). split; [exact (V A)|apply D4, W].
    - intros W. assert (A : alignment c = true) by (apply FA, W). destruct (Va A) as (d & P & V1 & V2).
      unfold read_align in Ea. change (q_alignment (m_request m)) with (alignment c) in Ea. rewrite A in Ea.
      inv_binds Ea. injection Ea as <-. apply double_number in E0. subst. rewrite R2, R3 in V2. unfold w.
      split; [apply V2; reflexivity|]. split; [apply V2; reflexivity|]. split; [apply V2; reflexivity|]. exists d. split; [exact V1|exact P].
  Qed.
End Values2.

(** ** Tables *)
Lemma rows_spec f z n r : rows f z n = Ok r -> List.length r = n /\ forall i, (i < n)%nat -> f (z i) = Ok (nth i r (fun _ => 0%R)).
Proof.
  revert r. induction n as [|n IH]; intros r Q; cbn [rows] in Q; [injection Q as <-; split; [reflexivity|intros i L; lia]|].
  destruct (rows f z n) as [l|]; [cbn [bind] in Q|discriminate Q]. destruct (f (z n)) as [r'|] eqn:E; [cbn [bind] in Q|discriminate Q].
  injection Q as <-. destruct (IH l eq_refl) as [L1 L2]. split; [rewrite app_length, L1; cbn; lia|].
  intros i Li. destruct (Nat.eq_dec i n) as [->|N]; [rewrite app_nth2, L1, Nat.sub_diag by lia; exact E|]. rewrite app_nth1 by lia. apply L2. lia.
Qed.
Lemma rows_ok f z n : (exists r, rows f z n = Ok r) <-> forall i, (i < n)%nat -> exists r, f (z i) = Ok r.
Proof.
  split; [intros [r Q] i L; apply rows_spec in Q as [_ Q]; eexists; apply Q, L|]. induction n as [|n IH]; intros Q; [eexists; reflexivity|].
  cbn [rows]. destruct IH as [l ->]; [intros i L; apply Q; lia|]. destruct (Q n) as [r Er]; [lia|]. cbn [bind]. rewrite Er. eexists; reflexivity.
Qed.
Lemma sorted_incr l : sorted l -> incr (List.length l) (at_ l).
Proof. intros Q i L. apply Q. lia. Qed.
Lemma forallb_len (p : list (list R)) n : forallb (fun row => Nat.eqb (List.length row) n) p = true <-> Forall (fun row => List.length row = n) p.
Proof.
  rewrite forallb_forall, Forall_forall. split; intros Q x I; specialize (Q x I); [apply Nat.eqb_eq, Q|apply Nat.eqb_eq; exact Q].
Qed.
Section Tables.
  Variables (table : Type) (missing : string) (m : module_config) (b : block).
  Lemma power_read sec kout t : read_power missing m b sec kout = Ok t -> exists zs ks p, table_of b sec zs ks p /\
    exists r, rows (interpolate_in_z (List.length zs) (at_ zs) (cell p)) (h_zvec (m_hmf m)) (h_nz (m_hmf m)) = Ok r /\
      t = fun i j => log_linear_k (List.length ks) (at_ ks) (nth i r (fun _ => 0%R)) (kout j).
  Proof.
    unfold read_power, need_arr, need_tab. intros Q.
    destruct (b sec "k_h") as [[| |ks| |]|] eqn:E1; try discriminate Q. cbn [bind] in Q.
    destruct (b sec "z") as [[| |zs| |]|] eqn:E2; try discriminate Q. cbn [bind] in Q.
    destruct (b sec "p_k") as [[| | |p|]|] eqn:E3; try discriminate Q. cbn [bind] in Q.
    destruct (Nat.eqb_spec (List.length p) (List.length zs)) as [L|]; [cbn [negb] in Q|discriminate Q].
    match type of Q with bind ?e _ = _ => destruct e as [r|] eqn:E4; [cbn [bind] in Q|discriminate Q] end.
    destruct (forallb (fun row => Nat.eqb (List.length row) (List.length ks)) p) eqn:E5; [cbn [negb] in Q|discriminate Q]. injection Q as <-.
    exists zs, ks, p. split; [repeat split; try assumption; now apply forallb_len|]. exists r. split; [exact E4|reflexivity].
  Qed.
  Lemma power_resamples sec kout nk t zs ks p : read_power missing m b sec kout = Ok t -> table_of b sec zs ks p ->
    (2 <= List.length zs)%nat -> (2 <= List.length ks)%nat -> sorted zs -> sorted ks -> (0 < nth 0 ks 0)%R ->
    resamples (h_nz (m_hmf m)) nk (h_zvec (m_hmf m)) kout t zs ks p.
  Proof.
    intros Q T Lz Lk Sz Sk P0. apply power_read in Q as (zs' & ks' & p' & T' & r & Er & ->).
    assert (zs' = zs /\ ks' = ks /\ p' = p) as (-> & -> & ->).
    { destruct T as (T1 & T2 & T3 & _), T' as (U1 & U2 & U3 & _). repeat split; congruence. }
    clear T'. apply rows_spec in Er as [_ Er]. apply sorted_incr in Sz. apply sorted_incr in Sk.
    assert (Pk : forall i, (i < List.length ks)%nat -> (0 < at_ ks i)%R).
    { intros i L. apply Rlt_le_trans with (at_ ks 0); [exact P0|]. apply (incr_le _ _ 0 i Sk); lia. }
    destruct (in_z_spec (List.length zs) (at_ zs) (cell p) Lz Sz) as (_ & _ & Nd & Hl & _).
    split; [|split].
    - intros i j l q Li Ll Lj Lq Ez Ek Pp. specialize (Er i Li). rewrite Ez in Er. rewrite Ek.
      assert (R : nth i r (fun _ => 0%R) q = nth q (nth j p []) 0%R) by (apply (Nd j _ q Lj Er)).
      change (nth q ks 0%R) with (at_ ks q). rewrite log_linear_node; [exact R|exact Lk|exact Pk|exact Sk|exact Lq|]. rewrite R. exact Pp.
    - intros i l _ _. apply log_linear_pos.
    - intros lo hi Hlo B i l Li _ K. apply log_linear_hull; [exact Lk|exact Pk|exact Sk|exact Hlo| |exact K].
      intros q Lq. apply (Hl _ _ q lo hi (Er i Li)). intros j Lj. apply (B j q Lj Lq).
  Qed.
  Lemma power_readable sec kout zs ks p : table_of b sec zs ks p -> (2 <= List.length zs)%nat -> sorted zs ->
    ((exists t, read_power missing m b sec kout = Ok t) <-> covers zs (m_hmf m)).
  Proof.
    intros T Lz Sz. apply sorted_incr in Sz. destruct (in_z_spec (List.length zs) (at_ zs) (cell p) Lz Sz) as (Ok1 & _).
    assert (C : covers zs (m_hmf m) <-> exists r, rows (interpolate_in_z (List.length zs) (at_ zs) (cell p)) (h_zvec (m_hmf m)) (h_nz (m_hmf m)) = Ok r).
    { rewrite rows_ok. split; intros Q i L; specialize (Q i L); now apply Ok1. }
    rewrite C. split.
    - intros [t Q]. apply power_read in Q as (zs' & ks' & p' & T' & r & Er & _).
      assert (zs' = zs /\ p' = p) as (-> & ->) by (destruct T as (T1 & T2 & T3 & _), T' as (U1 & U2 & U3 & _); split; congruence). eauto.
    - intros [r Er]. destruct T as (T1 & T2 & T3 & T4 & T5). unfold read_power, need_arr, need_tab. rewrite T1, T2, T3. cbn [bind].
      rewrite T4, Nat.eqb_refl. cbn [negb]. rewrite Er. cbn [bind]. apply forallb_len in T5. rewrite T5. eexists. reflexivity.
  Qed.
End Tables.
