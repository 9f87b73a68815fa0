(** The legacy ingredients against HaloModelIngredients on the same choices. *)
From Coquelicot Require Import Coquelicot.
From Verif Require Import Base BaseFacts Quad FftModel HmiModel HmiSpec HmiFacts3 HmiFacts4 HmiFacts5 OptModel ChainModel MiniModel LgModel LgSpec LgFacts LgFacts2.
Open Scope R_scope.

(** What setup leaves. *)
Definition set_up (prof0 : dict) (cfg : lg_config) (x0 : hpar) : Prop :=
  hp_mdef x0 = lc_mdef cfg /\ hp_prof_par x0 = prof0 /\ hp_conc_par x0 = [] /\ hp_delta_c x0 = lc_delta_c cfg /\
  match lc_mead cfg with
  | Some _ => lc_mdef cfg = "SOVirial"%string /\ hp_mdef_par x0 = [] /\ hp_hmf x0 = "ST"%string /\ hp_bias x0 = "ST99"%string /\
              hp_noconv x0 = true /\ hp_conc x0 = "Duffy08"%string
  | None => hp_mdef_par x0 = (if String.eqb (lc_mdef cfg) "SOVirial" then [] else [("overdensity"%string, lc_overdensity cfg)]) /\
            hp_noconv x0 = false
  end.

Ltac step_bind H :=
  match type of H with
  | bind ?r _ = Ok _ => destruct r; cbn [bind] in H; [|discriminate H]
  end.

Lemma setup_leaves masses prof0 missing wrong o cfg x0 : lg_setup masses prof0 missing wrong o = Ok (cfg, x0) -> set_up prof0 cfg x0.
Proof.
  unfold lg_setup. intros E. repeat step_bind E. injection E as <- <-. unfold set_up. cbn.
  destruct (lg_correction _); repeat split; reflexivity.
Qed.

Lemma list_ext {A} (l l' : list A) : List.length l = List.length l' ->
  (forall j, (j < List.length l)%nat -> nth_error l j = nth_error l' j) -> l = l'.
Proof.
  revert l'; induction l as [|a l IH]; intros [|a' l'] L E; try discriminate; [reflexivity|].
  pose proof (E 0%nat ltac:(cbn; lia)) as E0. cbn in E0. injection E0 as ->. f_equal.
  apply IH; [cbn in L; lia|]. intros j Hj. apply (E (S j)). cbn. lia.
Qed.

Lemma nth_map_in (f : R -> R) l k : (k < List.length l)%nat -> nth k (map f l) 0 = f (nth k l 0).
Proof. intros H. rewrite (nth_indep _ 0 (f 0)) by (rewrite map_length; exact H). apply map_nth. Qed.

Section Compare.
  Variable dset : dict -> dict -> dict.
  Variable mset : string -> string -> dict -> dict.
  Variable astro : list R -> cosmo.
  Variable growth : cosmo -> R -> R.
  Variable root : (R -> R) -> option R.
  Variable sigma8 : dblock -> hpar -> R.
  Variable variance : dblock -> hpar -> R -> R.
  Variable rd : dblock -> list R -> lg_reads.
  Hypothesis HL : setting_law dset.
  Hypothesis ML : model_law mset.
  Hypothesis H8 : forall b, profile_free (sigma8 b).
  Hypothesis HV : forall b, profile_free (variance b).
  Notation exec := (lg_execute dset mset astro growth root sigma8 variance rd).
  Notation turn := (lg_turn dset mset growth root sigma8 variance).
  Notation rows := (rows_of dset mset growth root sigma8 variance).
  Variable prof0 : dict.
  Variables (cfg : lg_config) (x0 : hpar).
  Hypothesis SU : set_up prof0 cfg x0.
  Variable logT : R.
  Notation cls i := (as_class cfg x0 growth logT i).

  Lemma cls_shapes i : shapes_ok (cls i).
  Proof. unfold shapes_ok, shape_ok. cbn. intuition. Qed.

  (** The plain case: the very same halo models. *)
  Lemma plain_rows b i j r : lc_mead cfg = None -> snd (turn cfg b i x0 (nth j (lc_z cfg) 0)) = Ok r ->
    ro_cen r = cen_at (cls i) dset (sigma8 b) prof0 j /\ ro_sat r = sat_at (cls i) dset mset (sigma8 b) prof0 j /\ ro_conc r = None.
  Proof.
    intros Hm. destruct SU as (S1 & S2 & S3 & S4 & S5). rewrite Hm in S5. destruct S5 as [S5 S6].
    unfold lg_turn. rewrite Hm. unfold lg_turn_plain. cbv zeta. cbn [snd]. intros E. injection E as <-. cbn [ro_cen ro_sat ro_conc].
    unfold cen_at, sat_at. cbn [as_class hi_ingr hi_z hi_eta_cen hi_norm_cen hi_eta_sat hi_norm_sat]. rewrite Hm. cbn [is_mead].
    set (z := nth j (lc_z cfg) 0). unfold entry. cbn [List.length Nat.eqb nth].
    assert (B : upd_z dset z (mdef_params (cls i) z) (delta_c_mod (cls i) z) (start (cls i) prof0 z) =
      lg_upd_z z (if String.eqb (lc_mdef cfg) "SOVirial"
              then 3 / 20 * fpow (12 * PI) (2 / 3) * (1 + 123/10000 * log10 (co_Om (li_cosmo i) z))
              else lc_delta_c cfg) x0).
    { unfold upd_z, start, lg_upd_z. cbn [hp_mdef hp_mdef_par hp_hmf hp_bias hp_noconv hp_prof hp_prof_par hp_conc hp_conc_par].
      rewrite (mdef_set (cls i) dset HL). unfold mdef_mod, mdef_params, delta_c_mod, hmf_mod, bias_mod, disable_mass_conversion, conc_mod_dm.
      cbn [as_class hi_ingr hi_mdef hi_hmf hi_bias hi_prof_dm hi_conc_dm hi_delta_c hi_overdensity hi_cosmo]. rewrite Hm. cbn [is_mead].
      rewrite S1, S2, S3, S5, S6. unfold dc_EdS. destruct (String.eqb (lc_mdef cfg) "SOVirial"); [reflexivity|].
      rewrite Rmult_1_r. reflexivity. }
    split; [unfold cen_plain; rewrite B; reflexivity|]. split; [|reflexivity].
    unfold sat_plain. rewrite B. unfold upd_models, upd_par, lg_upd_z. cbn.
    unfold conc_mod_sat. cbn [as_class hi_ingr hi_conc_sat]. rewrite Hm. cbn [is_mead]. rewrite !ML.
    assert (D : forall k d v w, dset (dset d [(k, v)]) [(k, w)] = dset d [(k, w)]).
    { intros k d v w. destruct HL as [_ [L _]]. apply L. split; [reflexivity|]. repeat constructor. intros []. }
    rewrite !D. reflexivity.
  Qed.

  (** The corrected case: the same haloes, other satellites. *)
  Lemma mead_rows b i j r m : from_nothing dset mset -> lc_mead cfg = Some m ->
    (m = Feedback -> block_num b "halo_model_parameters" "logT_AGN" = Ok logT) ->
    snd (turn cfg b i x0 (nth j (lc_z cfg) 0)) = Ok r ->
    let H := cls i in let z := nth j (lc_z cfg) 0 in
    let x := cen_at H dset (sigma8 b) prof0 j in
    same_population (ro_cen r) x /\ same_population (ro_sat r) x /\
    hp_prof (ro_cen r) = hp_prof x /\ hp_prof_par (ro_cen r) = hp_prof_par x /\
    hp_prof (ro_sat r) = hp_prof x /\ hp_prof_par (ro_sat r) = dset prof0 [("eta_bloat"%string, li_eta_sat i)] /\
    hp_conc (ro_cen r) = "Duffy08"%string /\ hp_conc_par (ro_cen r) = [] /\
    hp_conc (ro_sat r) = "Duffy08"%string /\ hp_conc_par (ro_sat r) = [] /\
    exists zf, lg_collapse root (growth (li_cosmo i)) (variance b x) (delta_c_mod H z) z (lc_mass cfg) = Ok zf /\
      ro_conc r = Some (lg_conc (K H z) z zf, lg_conc (li_norm_sat i) z zf).
  Proof.
    intros [F1 F2] Hm HT. destruct SU as (S1 & S2 & S3 & S4 & S5). rewrite Hm in S5.
    destruct S5 as (S5 & S6 & S7 & S8 & S9 & S10). intros E. cbv zeta.
    unfold lg_turn in E. rewrite Hm in E. unfold lg_turn_mead in E. cbv zeta in E. set (z := nth j (lc_z cfg) 0) in *.
    set (dc := lg_dc_Mead _ _ _ _ _) in E. set (dv := lg_Dv_Mead _ _ _ _ _) in E.
    set (x1 := lg_upd_mdef dset mset z dc "SOVirial_Mead" _ x0) in E.
    assert (IM : is_mead (hi_ingr (cls i)) = true) by (cbn; rewrite Hm; destruct m; reflexivity).
    assert (Edc : delta_c_mod (cls i) z = dc) by (unfold delta_c_mod; rewrite IM; reflexivity).
    assert (Edv : mdef_params (cls i) z = [("overdensity"%string, dv)]) by (unfold mdef_params; rewrite IM; reflexivity).
    assert (EM : hp_mdef_par x1 = [("overdensity"%string, dv)]).
    { unfold x1. cbn. rewrite S1, S6, F2, F1. reflexivity. }
    set (y1 := upd_z dset z (mdef_params (cls i) z) (delta_c_mod (cls i) z) (start (cls i) prof0 z)).
    assert (EP : same_population x1 y1).
    { unfold same_population. rewrite EM. unfold y1, x1, upd_z, start. cbn [hp_z hp_mdef hp_mdef_par hp_delta_c hp_hmf hp_bias hp_noconv lg_upd_mdef].
      rewrite (mdef_set (cls i) dset HL), Edc, Edv. unfold mdef_mod, hmf_mod, bias_mod, disable_mass_conversion. rewrite IM.
      repeat split; assumption. }
    assert (Q : forall A (q : hpar -> A) x y, profile_free q -> same_population x y -> q x = q y).
    { intros A q x y P (P1 & P2 & P3 & P4 & P5 & P6 & P7). apply P; assumption. }
    assert (EX : cen_at (cls i) dset (sigma8 b) prof0 j
       = upd_par dset [("eta_bloat"%string, mead_eta (sigma8 b y1))] [("norm"%string, li_norm_cen i); ("K"%string, K (cls i) z)] y1).
    { unfold cen_at. rewrite IM. unfold cen_mead, entry. reflexivity. }
    assert (EN : lg_norm m b z = Ok (K (cls i) z)).
    { unfold K, lg_norm. cbn [as_class hi_ingr hi_log10T]. rewrite Hm. destruct m; [f_equal; ring|]. rewrite (HT eq_refl). reflexivity. }
    rewrite EN in E. cbn [bind] in E.
    rewrite (Q _ (sigma8 b) x1 y1 (H8 b) EP) in E. fold (mead_eta (sigma8 b y1)) in E.
    destruct (lg_collapse root (growth (li_cosmo i)) (variance b x1) dc z (lc_mass cfg)) as [zf|e] eqn:C; cbn [bind snd] in E; [|discriminate].
    injection E as <-. cbn [ro_cen ro_sat ro_conc]. rewrite EX.
    split; [exact EP|]. split; [exact EP|].
    unfold y1, x1. cbn. rewrite S2, S3, S10.
    split; [reflexivity|]. split; [reflexivity|]. split; [reflexivity|]. split.
    { destruct HL as [_ [L _]]. apply L. split; [reflexivity|]. repeat constructor. intros []. }
    do 4 (split; [reflexivity|]). exists zf. split; [|reflexivity].
    rewrite Edc, <- C. f_equal. apply (Q _ (variance b)); [apply HV|].
    destruct EP as (P1 & P2 & P3 & P4 & P5 & P6 & P7). repeat split; symmetry; assumption.
  Qed.

  (** Tables. *)
  Lemma class_rows b i rs : lc_z cfg <> [] ->
    exists cs ss, hmf_generator (cls i) dset mset (sigma8 b) prof0 = Ok (cs, ss) /\
      List.length cs = List.length (lc_z cfg) /\ List.length ss = List.length (lc_z cfg) /\
      (rows x0 cfg b i (lc_z cfg) = Ok rs -> forall A (f : lg_row -> A) (q : hpar -> A),
        (forall j r, snd (turn cfg b i x0 (nth j (lc_z cfg) 0)) = Ok r -> f r = q (cen_at (cls i) dset (sigma8 b) prof0 j)) -> map f rs = map q cs) /\
      (rows x0 cfg b i (lc_z cfg) = Ok rs -> forall A (f : lg_row -> A) (q : hpar -> A),
        (forall j r, snd (turn cfg b i x0 (nth j (lc_z cfg) 0)) = Ok r -> f r = q (sat_at (cls i) dset mset (sigma8 b) prof0 j)) -> map f rs = map q ss).
  Proof.
    intros Hz.
    destruct (generator_closed (cls i) dset mset (sigma8 b) prof0 HL ML (H8 b) Hz (cls_shapes i)) as (cs & ss & G & L1 & L2 & N).
    cbn [as_class hi_z] in L1, L2, N.
    exists cs, ss. split; [exact G|]. split; [exact L1|]. split; [exact L2|].
    split; intros Hr A f q Hq; destruct (proj1 (rows_split _ _ _ _ _ _ _ _ _ _ _ _) Hr) as [L Nr];
      (apply list_ext; [rewrite !map_length; congruence|]; intros j Hj; rewrite map_length, L in Hj;
       destruct (Nr j Hj) as (r & Er & Tr); destruct (N j Hj) as [N1 N2]; rewrite !nth_error_map, Er, ?N1, ?N2;
       cbn [option_map]; f_equal; apply Hq, Tr).
  Qed.

  Lemma acc_of i b {A} (q : hpar -> A) cs ss : hmf_generator (cls i) dset mset (sigma8 b) prof0 = Ok (cs, ss) ->
    acc_cen (cls i) dset mset (sigma8 b) prof0 q = Ok (map q cs) /\ acc_sat (cls i) dset mset (sigma8 b) prof0 q = Ok (map q ss).
  Proof. intros E. unfold acc_cen, acc_sat. rewrite E. split; reflexivity. Qed.

  Lemma ran_has_z b o : snd (exec cfg x0 b) = Ok o -> lc_z cfg <> [].
  Proof.
    intros E Ez. destruct (exec_ok _ _ _ _ _ _ _ _ HL ML H8 HV _ _ _ _ E) as (i & rs & _ & Hr & Ht).
    rewrite Ez in Hr. cbn in Hr. injection Hr as <-. discriminate.
  Qed.

  Lemma plain_tables b i o : lc_mead cfg = None -> lg_read astro cfg b = Ok i -> snd (exec cfg x0 b) = Ok o ->
    let q := rd b (li_k i) in
    let C := fun A (f : hpar -> A) => acc_cen (cls i) dset mset (sigma8 b) prof0 f in
    let T := fun A (f : hpar -> A) => acc_sat (cls i) dset mset (sigma8 b) prof0 f in
    C _ (rd_cm q) = Ok (out_c_cen o) /\ T _ (rd_cm q) = Ok (out_c_sat o) /\
    C _ (rd_rs q) = Ok (out_rs_cen o) /\ T _ (rd_rs q) = Ok (out_rs_sat o) /\
    C _ (fun x => lg_normalise (rd_u q x None)) = Ok (out_u_cen o) /\
    T _ (fun x => lg_normalise (rd_u q x None)) = Ok (out_u_sat o) /\
    (exists rc rs, C _ (rd_rvir q) = Ok rc /\ T _ (rd_rvir q) = Ok rs /\
       out_rvir_cen o = hd [] rc /\ out_rvir_sat o = hd [] rs).
  Proof.
    intros Hm Hi E. cbv zeta. destruct (exec_ok _ _ _ _ _ _ _ _ HL ML H8 HV _ _ _ _ E) as (i' & rs & Hi' & Hr & Ht).
    rewrite Hi in Hi'. injection Hi' as <-.
    destruct (class_rows b i rs (ran_has_z b o E)) as (cs & ss & G & _ & _ & RC & RS). specialize (RC Hr). specialize (RS Hr).
    assert (PC : forall A (f : hpar -> A), map (fun r => f (ro_cen r)) rs = map f cs).
    { intros A f. apply RC. intros j r Tr. destruct (plain_rows b i j r Hm Tr) as (-> & _ & _). reflexivity. }
    assert (PS : forall A (f : hpar -> A), map (fun r => f (ro_sat r)) rs = map f ss).
    { intros A f. apply RS. intros j r Tr. destruct (plain_rows b i j r Hm Tr) as (_ & -> & _). reflexivity. }
    assert (AC : forall A (f : hpar -> A), acc_cen (cls i) dset mset (sigma8 b) prof0 f = Ok (map f cs)) by (intros A f; apply (acc_of i b f cs ss G)).
    assert (AT : forall A (f : hpar -> A), acc_sat (cls i) dset mset (sigma8 b) prof0 f = Ok (map f ss)) by (intros A f; apply (acc_of i b f cs ss G)).
    assert (NC : forall r, In r rs -> ro_conc r = None).
    { intros r Ir. destruct (In_nth_error _ _ Ir) as [j Ej].
      destruct (proj1 (rows_split _ _ _ _ _ _ _ _ _ _ _ _) Hr) as [L N].
      assert (Hj : (j < List.length (lc_z cfg))%nat) by (rewrite <- L; apply nth_error_Some; congruence).
      destruct (N j Hj) as (r' & Er & Tr). assert (r' = r) by congruence. subst r'. apply (plain_rows b i j r Hm Tr). }
    rewrite !AC, !AT. unfold lg_tables in Ht. destruct rs as [|r0 rs'] eqn:Ers; [discriminate|]. rewrite <- Ers in *.
    apply (f_equal (fun r => match r with Ok v => v | Err _ => o end)) in Ht. cbv beta iota zeta in Ht. subst o.
    cbn [out_c_cen out_c_sat out_rs_cen out_rs_sat out_u_cen out_u_sat out_rvir_cen out_rvir_sat].
    split; [f_equal; rewrite <- PC; apply map_ext_in; intros r Ir; rewrite (NC r Ir); reflexivity|].
    split; [f_equal; rewrite <- PS; apply map_ext_in; intros r Ir; rewrite (NC r Ir); reflexivity|].
    split; [f_equal; symmetry; apply PC|]. split; [f_equal; symmetry; apply PS|].
    split; [f_equal; rewrite <- (PC _ (fun x => lg_normalise (rd_u (rd b (li_k i)) x None))); apply map_ext_in; intros r Ir; rewrite (NC r Ir); reflexivity|].
    split; [f_equal; rewrite <- (PS _ (fun x => lg_normalise (rd_u (rd b (li_k i)) x None))); apply map_ext_in; intros r Ir; rewrite (NC r Ir); reflexivity|].
    eexists. eexists. split; [reflexivity|]. split; [reflexivity|].
    rewrite <- PC, <- PS, Ers. split; reflexivity.
  Qed.

  Lemma population_tables b i o : from_nothing dset mset ->
    (lc_mead cfg = Some Feedback -> block_num b "halo_model_parameters" "logT_AGN" = Ok logT) ->
    lg_read astro cfg b = Ok i -> snd (exec cfg x0 b) = Ok o ->
    let q := rd b (li_k i) in
    let C := fun A (f : hpar -> A) => acc_cen (cls i) dset mset (sigma8 b) prof0 f in
    population q ->
    C _ (rd_dndlnm q) = Ok (out_dndlnm o) /\ C _ (rd_bias q) = Ok (out_bias o) /\
    C _ (fun x => map sqrt (rd_nu q x)) = Ok (out_nu o) /\ C _ (rd_mean q) = Ok (out_mean o) /\
    C _ (rd_neff q) = Ok (out_neff o) /\ C _ (rd_s8 q) = Ok (out_s8 o) /\
    C _ (fun x => rd_overdensity q x * rd_mean0 q x) = Ok (out_rho_halo o) /\
    fnu (cls i) = repeat (out_fnu o) (List.length (lc_z cfg)).
  Proof.
    intros F HT Hi E. cbv zeta. intros (P1 & P2 & P3 & P4 & P5 & P6 & P7 & P8).
    destruct (exec_ok _ _ _ _ _ _ _ _ HL ML H8 HV _ _ _ _ E) as (i' & rs & Hi' & Hr & Ht).
    rewrite Hi in Hi'. injection Hi' as <-.
    destruct (class_rows b i rs (ran_has_z b o E)) as (cs & ss & G & _ & _ & RC & _). specialize (RC Hr).
    assert (PC : forall A (f : hpar -> A), profile_free f -> map (fun r => f (ro_sat r)) rs = map f cs).
    { intros A f PF. apply RC. intros j r Tr. destruct (lc_mead cfg) as [m|] eqn:Hm.
      - assert (HT' : m = Feedback -> block_num b "halo_model_parameters" "logT_AGN" = Ok logT) by (intros ->; apply HT; reflexivity).
        destruct (mead_rows b i j r m F Hm HT' Tr) as (_ & (Q1 & Q2 & Q3 & Q4 & Q5 & Q6 & Q7) & _). apply PF; assumption.
      - destruct (plain_rows b i j r Hm Tr) as (E1 & E2 & _). rewrite E2. unfold sat_at, cen_at.
        cbn [as_class hi_ingr]. rewrite Hm. cbn [is_mead]. apply PF; reflexivity. }
    assert (AC : forall A (f : hpar -> A), acc_cen (cls i) dset mset (sigma8 b) prof0 f = Ok (map f cs)) by (intros A f; apply (acc_of i b f cs ss G)).
    rewrite !AC. unfold lg_tables in Ht. destruct rs as [|r0 rs'] eqn:Ers; [discriminate|]. rewrite <- Ers in *.
    apply (f_equal (fun r => match r with Ok v => v | Err _ => o end)) in Ht. cbv beta iota zeta in Ht. subst o.
    cbn [out_dndlnm out_bias out_nu out_mean out_neff out_s8 out_rho_halo out_fnu].
    split; [f_equal; symmetry; apply PC; assumption|]. split; [f_equal; symmetry; apply PC; assumption|].
    split.
    { f_equal. symmetry. apply (PC _ (fun x => map sqrt (rd_nu (rd b (li_k i)) x))).
      intros x x' ? ? ? ? ? ? ?. f_equal. apply P1; assumption. }
    do 3 (split; [f_equal; symmetry; apply PC; assumption|]). split.
    { f_equal. symmetry. apply (PC _ (fun x => rd_overdensity (rd b (li_k i)) x * rd_mean0 (rd b (li_k i)) x)).
      intros x x' ? ? ? ? ? ? ?. f_equal; [apply P7|apply P8]; assumption. }
    unfold fnu. cbn [as_class hi_cosmo hi_z]. clear. induction (lc_z cfg) as [|z zs IH]; [reflexivity|]. cbn. f_equal. exact IH.
  Qed.

  Lemma collapse_nth g sg dc z : forall ms zf, lg_collapse root g sg dc z ms = Ok zf ->
    List.length zf = List.length ms /\
    forall k, (k < List.length ms)%nat -> collapse_redshift g sg root dc z (nth k ms 0) = Ok (nth k zf 0).
  Proof.
    induction ms as [|m ms IH]; intros zf E; cbn [lg_collapse] in E.
    - injection E as <-. split; [reflexivity|intros k Hk; cbn in Hk; lia].
    - destruct (collapse_redshift g sg root dc z m) as [f|e] eqn:C; cbn [bind] in E; [|discriminate].
      destruct (lg_collapse root g sg dc z ms) as [fs|e] eqn:Q; cbn [bind] in E; [|discriminate]. injection E as <-.
      destruct (IH fs eq_refl) as [L N]. split; [cbn; lia|].
      intros [|k] Hk; [exact C|]. cbn [nth]. apply N. cbn in Hk. lia.
  Qed.

  (** The corrected case, redshift by redshift. *)
  Lemma mead_tables b i o m : from_nothing dset mset -> lc_mead cfg = Some m ->
    (m = Feedback -> block_num b "halo_model_parameters" "logT_AGN" = Ok logT) ->
    lg_read astro cfg b = Ok i -> snd (exec cfg x0 b) = Ok o ->
    let q := rd b (li_k i) in
    exists cs, acc_cen (cls i) dset mset (sigma8 b) prof0 (fun x => x) = Ok cs /\
    List.length cs = List.length (lc_z cfg) /\
    forall j x, nth_error cs j = Some x ->
    let z := nth j (lc_z cfg) 0 in
    exists y y', same_population y x /\ same_population y' x /\
      hp_prof y = hp_prof x /\ hp_prof_par y = hp_prof_par x /\ hp_conc y = "Duffy08"%string /\ hp_conc_par y = [] /\
      hp_prof y' = hp_prof x /\ dget (hp_prof_par y') "eta_bloat" = Some (li_eta_sat i) /\
      hp_conc y' = "Duffy08"%string /\ hp_conc_par y' = [] /\
      nth j (out_rs_cen o) [] = rd_rs q y /\ nth j (out_rs_sat o) [] = rd_rs q y' /\
      nth j (out_u_cen o) [] = lg_normalise (rd_u q y (Some (nth j (out_c_cen o) []))) /\
      nth j (out_u_sat o) [] = lg_normalise (rd_u q y' (Some (nth j (out_c_sat o) []))) /\
      List.length (nth j (out_c_cen o) []) = List.length (lc_mass cfg) /\
      List.length (nth j (out_c_sat o) []) = List.length (lc_mass cfg) /\
      forall k, (k < List.length (lc_mass cfg))%nat -> exists zf,
        collapse_redshift (growth (li_cosmo i)) (variance b x) root (hp_delta_c x) z (nth k (lc_mass cfg) 0) = Ok zf /\
        nth k (nth j (out_c_cen o) []) 0 = K (cls i) z * (1 + zf) / (1 + z) /\
        nth k (nth j (out_c_sat o) []) 0 = li_norm_sat i * (1 + zf) / (1 + z).
  Proof.
    intros F Hm HT Hi E. cbv zeta.
    destruct (exec_ok _ _ _ _ _ _ _ _ HL ML H8 HV _ _ _ _ E) as (i' & rs & Hi' & Hr & Ht).
    rewrite Hi in Hi'. injection Hi' as <-.
    destruct (generator_closed (cls i) dset mset (sigma8 b) prof0 HL ML (H8 b) (ran_has_z b o E) (cls_shapes i)) as (cs & ss & G & L1 & L2 & N).
    cbn [as_class hi_z] in L1, L2, N.
    exists cs. split; [rewrite (proj1 (acc_of i b (fun x => x) cs ss G)), map_id; reflexivity|]. split; [exact L1|].
    intros j x Ex. assert (Hj : (j < List.length (lc_z cfg))%nat) by (rewrite <- L1; apply nth_error_Some; congruence).
    destruct (N j Hj) as [N1 _]. rewrite N1 in Ex. injection Ex as <-.
    destruct (proj1 (rows_split _ _ _ _ _ _ _ _ _ _ _ _) Hr) as [L Nr]. destruct (Nr j Hj) as (r & Er & Tr).
    destruct (mead_rows b i j r m F Hm HT Tr) as (A1 & A2 & A3 & A4 & A5 & A6 & A7 & A8 & A9 & A10 & zf & Cz & Cc).
    destruct (collapse_nth _ _ _ _ _ _ Cz) as [Lz Nz].
    unfold lg_tables in Ht. destruct rs as [|r0 rs']; [discriminate|].
    apply (f_equal (fun r => match r with Ok v => v | Err _ => o end)) in Ht. cbv beta iota zeta in Ht. subst o.
    cbn [out_rs_cen out_rs_sat out_u_cen out_u_sat out_c_cen out_c_sat].
    rewrite !(nth_error_map' _ _ _ _ _ Er), Cc. cbn [option_map fst snd].
    exists (ro_cen r), (ro_sat r). split; [exact A1|]. split; [exact A2|]. do 4 (split; [assumption|]). split; [exact A5|].
    split. { rewrite A6. destruct HL as [_ [_ B]]. apply B; [repeat constructor; intros []|reflexivity]. }
    do 2 (split; [assumption|]). do 4 (split; [reflexivity|]).
    unfold lg_conc. rewrite !map_length. split; [exact Lz|]. split; [exact Lz|].
    intros k Hk. exists (nth k zf 0).
    assert (Ed : hp_delta_c (cen_at (cls i) dset (sigma8 b) prof0 j) = delta_c_mod (cls i) (nth j (lc_z cfg) 0)).
    { unfold cen_at. cbn [as_class hi_ingr]. rewrite Hm. destruct m; reflexivity. }
    rewrite Ed. split; [apply Nz, Hk|].
    rewrite <- Lz in Hk. split; rewrite (nth_map_in _ _ _ Hk); reflexivity.
  Qed.
End Compare.
