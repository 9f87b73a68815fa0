(** Spectrum by spectrum. *)
From Coq Require Import ZArith.
From Verif Require Import Base Spec Quad Interp HodModel PkModel PipeModel OptModel ChainModel LhModel QuadFacts PkFacts LkModel LkSpec LkSpec2 LkFacts.
Open Scope R_scope.

Lemma bind_inv {A B} (m : res A) (f : A -> res B) v : bind m f = Ok v -> exists a, m = Ok a /\ f a = Ok v.
Proof. destruct m as [a|e]; [now exists a|discriminate]. Qed.
Lemma respond_bias S r0 r : respond S r0 = Ok r -> pk_bias r = pk_bias r0.
Proof. intros R. destruct (respond_inv _ _ _ R) as [[_ ->]|(_ & pn & mm & _ & _ & ->)]; reflexivity. Qed.

Section Alike.
  Variables (x : lk) (c : kconfig) (S : spectra) (pl : A2) (nb : nat) (h : bin).
  Hypotheses (H : halos_alike x S pl) (HA : asks_alike c S) (P : pk_lin S = Ok pl) (HB : beta_alike x S).

  Lemma beta_for : s_mode S = Bnl -> exists B, beta_nl S = Ok B /\ forall V W' V' U r j i, profile_alike V W' S nb -> profile_alike V' U S nb -> I_NL S W' U B = Ok r ->
    (j < s_nz S)%nat -> (i < s_nk S)%nat -> lk_INL x V V' j i = r nb j i.
  Proof.
    intros M. destruct (HB M) as (B & E & K). exists B. split; [exact E|]. intros V W' V' U r j i A A' R J I.
    eapply INL_alike; eauto.
  Qed.

  Lemma mm_alike W r : smoothing_alike x S -> profile_alike W (profile_mm S) S nb -> power_spectrum_mm_raw S = Ok r -> same_three S nb (lk_mm x c W) r.
  Proof.
    intros SM HW R. unfold power_spectrum_mm_raw in R. rewrite P in R. cbn [bind] in R.
    pose proof (aa_mode _ _ HA) as MO. pose proof (aa_ingr _ _ HA) as IN. unfold mode_of in MO. unfold ingredients_of in IN. unfold lk_mm.
    assert (O : forall j i, (j < s_nz S)%nat -> (i < s_nk S)%nat -> lk_1h x W W j i = one_halo S (profile_mm S) (profile_mm S) nb j i) by (intros; eapply one_halo_alike; eauto).
    pose proof (Im_alike x S pl H) as IM. pose proof (tr1_alike x c S pl H HA) as T1. pose proof (tr2_alike x c S pl H HA) as T2.
    destruct (s_mode S) eqn:M.
    - destruct (beta_for M) as (B & E & K). rewrite E in R. cbn [bind] in R. apply bind_inv in R. destruct R as (inl & R & Q). injection Q as <-.
      rewrite (bnl_alike c S HA), M. cbn [is_bnl].
      assert (N : forall j i, (j < s_nz S)%nat -> (i < s_nk S)%nat -> lk_INL x (W_m x 0) (W_m x 0) j i = inl nb j i) by (intros; eapply K; eauto; eapply matter_alike; eauto).
      split; [|split]; intros j i J I; cbn; rewrite ?O, ?T1, ?IM, ?N, ?(ha_pl _ _ _ H) by assumption; reflexivity.
    - destruct (kc_bnl c), (kc_fortuna c), (kc_mead c) as [[| |]|]; try discriminate MO; rewrite IN in R; injection R as <-;
        (split; [|split]; intros j i J I; destruct (SM M j J) as [S8 NE]; cbn; rewrite ?O, ?S8, ?NE, ?(ha_k _ _ _ H), ?(ha_pl _ _ _ H) by assumption; reflexivity).
    - destruct (kc_bnl c), (kc_fortuna c), (kc_mead c) as [[| |]|]; try discriminate MO; injection R as <-;
        (split; [|split]; intros j i J I; cbn; rewrite ?O, ?T1, ?T2, ?IM, ?(ha_pl _ _ _ H) by assumption; reflexivity).
    - destruct (kc_bnl c), (kc_fortuna c), (kc_mead c) as [[| |]|]; try discriminate MO; injection R as <-;
        (split; [|split]; intros j i J I; cbn; rewrite ?O, ?T1, ?T2, ?IM, ?(ha_pl _ _ _ H) by assumption; reflexivity).
  Qed.
  (** The response. *)
  (** The factor of the response acts on each table. *)
  Lemma answer_factor nl t r0 r W0 : (kc_response c = true -> smoothing_alike x S) -> (kc_response c = true -> forall W, W0 = Some W -> profile_alike W (profile_mm S) S nb) ->
    (kc_response c = true -> exists pn, pk_nl S = Ok (Some pn) /\ forall j i, (j < s_nz S)%nat -> (i < s_nk S)%nat -> nl j i = pn j i) ->
    respond S r0 = Ok r -> forall t', answered c x W0 nl t = Ok t' -> exists g, response_factor S nb g /\ (forall j i, pk_1h r nb j i = pk_1h r0 nb j i * g j i /\ pk_2h r nb j i = pk_2h r0 nb j i * g j i /\ pk_tot r nb j i = pk_tot r0 nb j i * g j i) /\
      forall j i, (j < s_nz S)%nat -> (i < s_nk S)%nat -> l_1h t' j i = l_1h t j i * g j i /\ l_2h t' j i = l_2h t j i * g j i /\ l_tot t' j i = l_tot t j i * g j i.
  Proof.
    intros SM HW HN R t' A. unfold respond in R. unfold answered in A. pose proof (aa_response _ _ HA) as RE. rewrite RE in R. destruct (kc_response c).
    - destruct (HN eq_refl) as (pn & N & NE). rewrite N in R. cbn [bind] in R. apply bind_inv in R. destruct R as (mm & M & R). destruct W0 as [V|]; [|discriminate A].
      destruct (mm_alike V mm (SM eq_refl) (HW eq_refl V eq_refl) M) as (_ & _ & ET). injection R as <-. injection A as <-.
      exists (fun j i => pn j i / pk_tot mm nb j i). split; [right; split; [exact RE|exists pn, mm; auto]|]. split; [intros; cbn; auto|].
      intros j i J I. cbn [l_1h l_2h l_tot]. rewrite ET, NE by assumption. unfold Rdiv. repeat split; ring.
    - injection R as <-. injection A as <-. exists (fun _ _ => 1). split; [left; auto|]. split; intros; repeat split; ring.
  Qed.

  Hypothesis G : bin_alike h S nb.
  Lemma cen_term j i : (j < s_nz S)%nat -> (i < s_nk S)%nat -> I_c x h j i = Ic_term S nb j i.
  Proof. intros. eapply Ig_alike; eauto using cen_alike. Qed.
  Lemma sat_term j i : (j < s_nz S)%nat -> (i < s_nk S)%nat -> I_s x h j i = Is_term S nb j i.
  Proof. intros. eapply Ig_alike; eauto using sat_alike. Qed.
  Lemma gg_alike po r : poisson_func (s_poisson S) (s_mass S) = Ok po -> (forall m, (m < s_nm S)%nat -> bi_po h m = po m) -> power_spectrum_gg S = Ok r ->
    exists r0 bias, respond S r0 = Ok r /\ same_three S nb (lk_gg x c h) r0 /\ pk_bias r = Some bias /\ same_on S nb (lk_bias_gg x h) bias.
  Proof.
    intros PO HP R. unfold power_spectrum_gg in R. rewrite P, PO in R. cbn [bind] in R. apply bind_inv in R. destruct R as (inl & N & R).
    pose proof (tr1_alike x c S pl H HA) as T1. pose proof (tr2_alike x c S pl H HA) as T2. pose proof cen_term as CT. pose proof sat_term as ST.
    assert (O1 : forall j i, (j < s_nz S)%nat -> (i < s_nk S)%nat -> lk_1h x (W_c h) (W_s x h) j i = one_halo S (cen_profile S) (sat_profile S) nb j i)
      by (intros; eapply one_halo_alike; eauto using cen_alike, sat_alike).
    assert (O2 : forall j i, (j < s_nz S)%nat -> (i < s_nk S)%nat -> lk_1h x (fun z k m => W_s x h z k m * bi_po h m) (W_s x h) j i
      = one_halo S (fun b z k m => sat_profile S b z k m * po m) (sat_profile S) nb j i).
    { intros. eapply one_halo_alike; eauto using sat_alike. intros j' i' m J I M. rewrite HP by exact M. f_equal. eapply sat_alike; eauto. }
    assert (N' : forall j i, (j < s_nz S)%nat -> (i < s_nk S)%nat -> (if kc_bnl c then x_plin x j i * lk_INL x (W_g x h) (W_g x h) j i else 0) = (if is_bnl (s_mode S) then pl j i * inl nb j i else 0)).
    { intros j i J I. rewrite (bnl_alike c S HA). destruct (s_mode S) eqn:M; cbn [is_bnl] in *; try reflexivity. destruct (beta_for M) as (B & E & K). rewrite E in N. cbn [bind] in N.
      rewrite (K _ _ _ _ _ j i (gal_alike _ _ _ H nb h G) (gal_alike _ _ _ H nb h G) N J I). now rewrite (ha_pl _ _ _ H). }
    match type of R with respond S ?r0 = _ => exists r0 end. eexists. split; [exact R|]. rewrite (respond_bias _ _ _ R). split; [|split; [reflexivity|]].
    - split; [|split]; intros j i J I; cbn; rewrite ?N' by assumption; rewrite ?(bnl_alike c S HA), ?O1, ?O2, ?T1, ?CT, ?ST, ?T2, ?(ha_pl _ _ _ H) by assumption; reflexivity.
    - intros j i J I. unfold lk_bias_gg. rewrite CT, ST by assumption. f_equal. ring.
  Qed.
  Lemma gm_alike r : profile_alike (bi_W h) (profile_xm S) S nb -> power_spectrum_gm S = Ok r ->
    exists r0 bias, respond S r0 = Ok r /\ same_three S nb (lk_gm x c h) r0 /\ pk_bias r = Some bias /\ same_on S nb (lk_bias_gm x h) bias.
  Proof.
    intros HW R. unfold power_spectrum_gm in R. rewrite P in R. cbn [bind] in R. apply bind_inv in R. destruct R as (inl & N & R).
    pose proof (tr1_alike x c S pl H HA) as T1. pose proof (tr2_alike x c S pl H HA) as T2. pose proof cen_term as CT. pose proof sat_term as ST. pose proof (Im_alike x S pl H) as IM.
    assert (O1 : forall j i, (j < s_nz S)%nat -> (i < s_nk S)%nat -> lk_1h x (W_c h) (bi_W h) j i = one_halo S (cen_profile S) (profile_xm S) nb j i)
      by (intros; eapply one_halo_alike; eauto using cen_alike).
    assert (O2 : forall j i, (j < s_nz S)%nat -> (i < s_nk S)%nat -> lk_1h x (W_s x h) (bi_W h) j i = one_halo S (sat_profile S) (profile_xm S) nb j i)
      by (intros; eapply one_halo_alike; eauto using sat_alike).
    assert (N' : forall j i, (j < s_nz S)%nat -> (i < s_nk S)%nat -> (if kc_bnl c then x_plin x j i * lk_INL x (W_g x h) (W_m x 0) j i else 0) = (if is_bnl (s_mode S) then pl j i * inl nb j i else 0)).
    { intros j i J I. rewrite (bnl_alike c S HA). destruct (s_mode S) eqn:M; cbn [is_bnl] in *; try reflexivity. destruct (beta_for M) as (B & E & K). rewrite E in N. cbn [bind] in N.
      rewrite (K _ _ _ _ _ j i (gal_alike _ _ _ H nb h G) (matter_alike _ _ _ H nb) N J I). now rewrite (ha_pl _ _ _ H). }
    match type of R with respond S ?r0 = _ => exists r0 end. eexists. split; [exact R|]. rewrite (respond_bias _ _ _ R). split; [|split; [reflexivity|]].
    - split; [|split]; intros j i J I; cbn; rewrite ?N' by assumption; rewrite ?(bnl_alike c S HA), ?O1, ?O2, ?T1, ?CT, ?ST, ?IM, ?T2, ?(ha_pl _ _ _ H) by assumption; reflexivity.
    - intros j i J I. unfold lk_bias_gm. now rewrite CT, ST, IM.
  Qed.

  Hypothesis HI : ia_alike h S nb.
  Lemma cen_ia_term j i : (j < s_nz S)%nat -> (i < s_nk S)%nat -> I_ca x h j i = Ic_align S nb j i.
  Proof. intros. eapply Ia_alike; eauto using cen_ia_alike. Qed.
  Lemma sat_ia_term j i : (j < s_nz S)%nat -> (i < s_nk S)%nat -> I_sa x h j i = Is_align S nb j i.
  Proof. intros. eapply Ia_alike; eauto using sat_ia_alike. Qed.
  Definition effective (pe : A2) : Prop := s_mode S = PkModel.Fortuna -> exists pe', peff_arr S = Ok pe' /\ forall j i, (j < s_nz S)%nat -> (i < s_nk S)%nat -> pe j i = pe' j i.
  Variable pe : A2.
  Hypothesis HE : effective pe.
  (** What the 2-halo table of the module lacks in mode bnl. *)
  Lemma mI_alike r : profile_alike (bi_W h) (profile_xm S) S nb -> power_spectrum_mi S = Ok r ->
    exists r0, respond S r0 = Ok r /\ same_on S nb (l_1h (lk_mI x c h pe)) (pk_1h r0) /\ same_on S nb (l_tot (lk_mI x c h pe)) (pk_tot r0) /\
      (s_mode S <> Bnl -> same_on S nb (l_2h (lk_mI x c h pe)) (pk_2h r0)) /\
      (forall B inl, beta_nl S = Ok B -> I_NL S (gal_align S) (matter_profile S) B = Ok inl -> s_mode S = Bnl ->
        forall j i, (j < s_nz S)%nat -> (i < s_nk S)%nat -> l_2h (lk_mI x c h pe) j i = pk_2h r0 nb j i + pl j i * inl nb j i).
  Proof.
    intros HW R. pose proof (tr1i_alike x c S pl H HA) as T1. pose proof (tr2i_alike x c S pl H HA) as T2. pose proof cen_ia_term as CT. pose proof sat_ia_term as ST.
    pose proof (Im_alike x S pl H) as IM. pose proof (amp_gi_alike _ _ _ H nb h HI) as AM.
    assert (O : forall j i, (j < s_nz S)%nat -> (i < s_nk S)%nat -> lk_1h x (bi_W h) (W_sat_ia h) j i = one_halo S (profile_xm S) (sat_align S) nb j i)
      by (intros; eapply one_halo_alike; eauto using sat_ia_alike).
    unfold power_spectrum_mi in R. unfold lk_mI. rewrite (fortuna_alike c S HA), (bnl_alike c S HA). destruct (s_mode S) eqn:M; cbn [is_fortuna is_bnl].
    - rewrite P in R. cbn [bind] in R. destruct (beta_for M) as (B & E & K). rewrite E in R. cbn [bind] in R. apply bind_inv in R. destruct R as (inl & N & R).
      assert (N' : forall j i, (j < s_nz S)%nat -> (i < s_nk S)%nat -> lk_INL x (W_ia x h) (W_m x 0) j i = inl nb j i)
        by (intros j i J I; exact (K _ _ _ _ _ j i (gal_ia_alike _ _ _ H nb h G HI) (matter_alike _ _ _ H nb) N J I)).
      eexists. split; [exact R|]. split; [|split; [|split; [congruence|]]]; [intros j i J I..|].
      + cbn. now rewrite O, T1.
      + cbn. rewrite O, T1, N', CT, ST, IM, (ha_pl _ _ _ H) by assumption. ring.
      + intros B' inl' E' N2 _ j i J I. assert (B' = B) as -> by congruence. unfold matter_profile_2h in N. assert (inl' = inl) as -> by congruence.
        cbn. rewrite CT, ST, IM, (ha_pl _ _ _ H) by assumption. ring.
    - rewrite P in R. cbn [bind] in R. eexists. split; [exact R|]. split; [|split; [|split; [intros _|congruence]]]; intros j i J I; cbn; rewrite ?O, ?T1, ?T2, ?CT, ?ST, ?IM, ?(ha_pl _ _ _ H) by assumption; ring.
    - destruct (HE M) as (pe' & E & K). rewrite E in R. cbn [bind] in R. eexists. split; [exact R|].
      split; [|split; [|split; [intros _|congruence]]]; intros j i J I; cbn -[sF_c amp_2h_II amp_ii pow]; rewrite ?O, ?T1, ?T2, ?AM, ?K, ?(ba_fc _ _ _ G) by assumption; ring.
    - rewrite P in R. cbn [bind] in R. eexists. split; [exact R|]. split; [|split; [|split; [intros _|congruence]]]; intros j i J I; cbn; rewrite ?O, ?T1, ?T2, ?CT, ?ST, ?IM, ?(ha_pl _ _ _ H) by assumption; ring.
  Qed.
  Lemma gI_alike r : power_spectrum_gi S = Ok r -> exists r0, respond S r0 = Ok r /\ same_three S nb (lk_gI x c h pe) r0.
  Proof.
    intros R. pose proof (tr1i_alike x c S pl H HA) as T1. pose proof (tr2i_alike x c S pl H HA) as T2. pose proof cen_ia_term as CT. pose proof sat_ia_term as ST.
    pose proof cen_term as C. pose proof (amp_gi_alike _ _ _ H nb h HI) as AM.
    assert (O : forall j i, (j < s_nz S)%nat -> (i < s_nk S)%nat -> lk_1h x (W_c h) (W_sat_ia h) j i = one_halo S (cen_profile S) (sat_align S) nb j i)
      by (intros; eapply one_halo_alike; eauto using sat_ia_alike, cen_alike).
    unfold power_spectrum_gi in R. unfold lk_gI. rewrite (fortuna_alike c S HA), (bnl_alike c S HA). destruct (s_mode S) eqn:M; cbn [is_fortuna is_bnl].
    - rewrite P in R. cbn [bind] in R. destruct (beta_for M) as (B & E & K). rewrite E in R. cbn [bind] in R. apply bind_inv in R. destruct R as (icc & N1 & R). apply bind_inv in R. destruct R as (ics & N2 & R).
      assert (K1 : forall j i, (j < s_nz S)%nat -> (i < s_nk S)%nat -> lk_INL x (W_cen_ia x h) (W_c h) j i = icc nb j i)
        by (intros j i J I; exact (K _ _ _ _ _ j i (cen_ia_alike _ _ _ H nb h G HI) (cen_alike S nb h G) N1 J I)).
      assert (K2 : forall j i, (j < s_nz S)%nat -> (i < s_nk S)%nat -> lk_INL x (W_sat_ia h) (W_c h) j i = ics nb j i)
        by (intros j i J I; exact (K _ _ _ _ _ j i (sat_ia_alike S nb h G HI) (cen_alike S nb h G) N2 J I)).
      eexists. split; [exact R|]. split; [|split]; intros j i J I; cbn; rewrite ?O, ?T1, ?K1, ?K2, ?CT, ?ST, ?C, ?(ha_pl _ _ _ H) by assumption; ring.
    - rewrite P in R. cbn [bind] in R. eexists. split; [exact R|]. split; [|split]; intros j i J I; cbn; rewrite ?O, ?T1, ?T2, ?CT, ?ST, ?C, ?(ha_pl _ _ _ H) by assumption; ring.
    - destruct (HE M) as (pe' & E & K). rewrite E in R. cbn [bind] in R. eexists. split; [exact R|]. split; [|split]; intros j i J I; cbn -[sF_c amp_2h_II amp_ii pow]; rewrite ?O, ?T1, ?T2, ?AM, ?K, ?C by assumption; ring.
    - rewrite P in R. cbn [bind] in R. eexists. split; [exact R|]. split; [|split]; intros j i J I; cbn; rewrite ?O, ?T1, ?T2, ?CT, ?ST, ?C, ?(ha_pl _ _ _ H) by assumption; ring.
  Qed.
  (** The 2-halo table of the module counts the cross term twice and leaves the satellites out. *)
  Lemma II_alike r : power_spectrum_ii S = Ok r ->
    exists r0, respond S r0 = Ok r /\ same_on S nb (l_1h (lk_II x c h pe)) (pk_1h r0) /\ same_on S nb (l_tot (lk_II x c h pe)) (pk_tot r0) /\
      (s_mode S = PkModel.Fortuna -> same_on S nb (l_2h (lk_II x c h pe)) (pk_2h r0)) /\
      (s_mode S = NoNl \/ s_mode S = Hmcode -> forall j i, (j < s_nz S)%nat -> (i < s_nk S)%nat ->
        l_2h (lk_II x c h pe) j i = pk_2h r0 nb j i + pl j i * Is_align S nb j i * (Ic_align S nb j i - Is_align S nb j i) * t2i S i) /\
      (forall B iss ics, beta_nl S = Ok B -> I_NL S (sat_align S) (sat_align S) B = Ok iss -> I_NL S (cen_align S) (sat_align S) B = Ok ics -> s_mode S = Bnl ->
        forall j i, (j < s_nz S)%nat -> (i < s_nk S)%nat ->
        l_2h (lk_II x c h pe) j i = pk_2h r0 nb j i + pl j i * (Is_align S nb j i * (Ic_align S nb j i - Is_align S nb j i) + (ics nb j i - iss nb j i))).
  Proof.
    intros R. pose proof (tr1i_alike x c S pl H HA) as T1. pose proof (tr2i_alike x c S pl H HA) as T2. pose proof cen_ia_term as CT. pose proof sat_ia_term as ST.
    pose proof (amp_ii_alike _ _ _ H nb h HI) as AM.
    assert (O : forall j i, (j < s_nz S)%nat -> (i < s_nk S)%nat -> lk_1h x (W_sat_ia h) (W_sat_ia h) j i = one_halo S (sat_align S) (sat_align S) nb j i)
      by (intros; eapply one_halo_alike; eauto using sat_ia_alike).
    unfold power_spectrum_ii in R. unfold lk_II. rewrite (fortuna_alike c S HA), (bnl_alike c S HA). destruct (s_mode S) eqn:M; cbn [is_fortuna is_bnl].
    - rewrite P in R. cbn [bind] in R. destruct (beta_for M) as (B & E & K). rewrite E in R. cbn [bind] in R. apply bind_inv in R. destruct R as (iss & N1 & R).
      apply bind_inv in R. destruct R as (icc & N2 & R). apply bind_inv in R. destruct R as (ics & N3 & R).
      assert (K1 : forall j i, (j < s_nz S)%nat -> (i < s_nk S)%nat -> lk_INL x (W_sat_ia h) (W_sat_ia h) j i = iss nb j i)
        by (intros j i J I; exact (K _ _ _ _ _ j i (sat_ia_alike S nb h G HI) (sat_ia_alike S nb h G HI) N1 J I)).
      assert (K2 : forall j i, (j < s_nz S)%nat -> (i < s_nk S)%nat -> lk_INL x (W_cen_ia x h) (W_cen_ia x h) j i = icc nb j i)
        by (intros j i J I; exact (K _ _ _ _ _ j i (cen_ia_alike _ _ _ H nb h G HI) (cen_ia_alike _ _ _ H nb h G HI) N2 J I)).
      assert (K3 : forall j i, (j < s_nz S)%nat -> (i < s_nk S)%nat -> lk_INL x (W_cen_ia x h) (W_sat_ia h) j i = ics nb j i)
        by (intros j i J I; exact (K _ _ _ _ _ j i (cen_ia_alike _ _ _ H nb h G HI) (sat_ia_alike S nb h G HI) N3 J I)).
      eexists. split; [exact R|]. split; [|split; [|split; [congruence|split; [intros [Q|Q]; congruence|]]]].
      + intros j i J I. cbn. now rewrite O, T1.
      + intros j i J I. cbn. rewrite O, T1, K1, K2, K3, CT, ST, (ha_pl _ _ _ H) by assumption. ring.
      + intros B' iss' ics' E' Q1 Q2 _ j i J I. assert (B' = B) as -> by congruence. assert (iss' = iss) as -> by congruence. assert (ics' = ics) as -> by congruence.
        cbn. rewrite K2, K3, CT, ST, (ha_pl _ _ _ H) by assumption. ring.
    - rewrite P in R. cbn [bind] in R. eexists. split; [exact R|]. split; [|split; [|split; [congruence|split; [intros _|congruence]]]]; intros j i J I; cbn; rewrite ?O, ?T1, ?T2, ?CT, ?ST, ?(ha_pl _ _ _ H) by assumption; ring.
    - destruct (HE M) as (pe' & E & K). rewrite E in R. cbn [bind] in R. eexists. split; [exact R|].
      split; [|split; [|split; [intros _|split; [intros [Q|Q]; congruence|congruence]]]]; intros j i J I; cbn -[sF_c amp_2h_II amp_ii pow]; rewrite ?O, ?T1, ?T2, ?AM, ?K, ?(ba_fc _ _ _ G) by assumption; ring.
    - rewrite P in R. cbn [bind] in R. eexists. split; [exact R|]. split; [|split; [|split; [congruence|split; [intros _|congruence]]]]; intros j i J I; cbn; rewrite ?O, ?T1, ?T2, ?CT, ?ST, ?(ha_pl _ _ _ H) by assumption; ring.
  Qed.
End Alike.
