(** From the block to what the module computes from. *)
From Coq Require Import ZArith.
From Verif Require Import Base Spec Quad Interp IaModel HodModel PkModel PipeModel OptModel FftModel ChainModel MiniModel PredModel AupModel AupFacts LiaModel LiaSpec LhModel LhSpec LrModel LrSpec LrFacts4 LkModel LkSpec LkSpec2 LkFacts LkFacts2 LkFacts3.
Open Scope R_scope.

Lemma holds_list v n f l : holds_array v n f -> v = Some (BArr l) -> List.length l = n /\ forall j, (j < n)%nat -> ChainModel.at_ l j = f j.
Proof. intros (l' & E & L & V) E'. rewrite E in E'. injection E' as <-. auto. Qed.
Lemma holds_rows v n m f t : holds_table v n m f -> v = Some (BTab t) -> forall j i, (j < n)%nat -> (i < m)%nat -> entry t j i = f j i.
Proof. intros (t' & E & L & V) E' j i J I. rewrite E in E'. injection E' as <-. now apply V. Qed.
Lemma array_is b s n l : array b s n = Ok l -> b s n = Some (BArr l).
Proof. unfold array. destruct (b s n) as [[| | | |]|]; try discriminate. congruence. Qed.
Lemma table_is b s n l : table_at b s n = Ok l -> b s n = Some (BTab l).
Proof. unfold table_at. destruct (b s n) as [[| | | |]|]; try discriminate. congruence. Qed.
Lemma sized_is b s n k l : sized b s n k = Ok l -> b s n = Some (BArr l).
Proof. unfold sized. intros E. apply bind_inv in E. destruct E as (a & A & E). destruct (Nat.eqb _ _); [|discriminate]. injection E as <-. now apply array_is. Qed.
Lemma sized_table_is b s n k m t : sized_table b s n k m = Ok t -> b s n = Some (BTab t).
Proof. unfold sized_table. intros E. apply bind_inv in E. destruct E as (a & A & E). destruct (_ && _)%bool; [|discriminate]. injection E as <-. now apply table_is. Qed.
Lemma reads_num b s n v x : reads b s n x -> block_num b s n = Ok v -> v = x.
Proof. unfold block_num. intros [R|(k & R & ->)]; rewrite R; congruence. Qed.
Ltac binds E := repeat (let a := fresh "a" in let A := fresh "A" in apply bind_inv in E; destruct E as (a & A & E)).

Lemma power_alike b s zq kq S f v : power_says b s S f -> (forall j, (j < s_nz S)%nat -> ChainModel.at_ zq j = s_zvec S j) -> (forall i, (i < s_nk S)%nat -> kq i = s_kvec S i) ->
  lk_power b s zq kq = Ok v -> within_grid S v f.
Proof.
  intros (ks & zs & t & K & Z & T & V) HZ HK E j i J I. unfold lk_power in E. binds E. apply array_is in A, A0. apply sized_table_is in A1. rewrite K in A. rewrite Z in A0. rewrite T in A1.
  injection A as <-. injection A0 as <-. injection A1 as <-. injection E as <-. rewrite HZ, HK by assumption. now rewrite <- V.
Qed.

Section Reading.
  Variables (dw : dblock -> list R -> A2 -> res A2) (nd : arrays) (c : kconfig) (b : dblock) (S : spectra) (pl : A2).
  Hypotheses (HA : asks_alike c S) (HG : halos_agree dw nd c b S pl).
  Lemma bnl_mode : kc_bnl c = true <-> s_mode S = Bnl.
  Proof. pose proof (aa_mode _ _ HA) as M. unfold mode_of in M. destruct (kc_bnl c), (kc_fortuna c), (kc_mead c) as [[| |]|]; try discriminate M; injection M as <-; intuition; discriminate. Qed.
  Lemma mead_mode : s_mode S = Hmcode -> kc_bnl c = false /\ meads c = true.
  Proof. intros H. pose proof (aa_mode _ _ HA) as M. rewrite H in M. unfold mode_of, meads in *. destruct (kc_bnl c), (kc_fortuna c), (kc_mead c) as [[| |]|]; try discriminate M; auto. Qed.
  Lemma read_alike z k mass x nl : lk_read dw nd c b = Ok (z, k, mass, x, nl) ->
    halos_alike x S pl /\ x_fnu x = 0 /\ (matters c = true -> smoothing_alike x S) /\ beta_alike x S /\
    (kc_response c = true -> exists pn, pk_nl S = Ok (Some pn) /\ forall j i, (j < s_nz S)%nat -> (i < s_nk S)%nat -> nl j i = pn j i) /\
    (List.length z = s_nz S /\ forall j, (j < s_nz S)%nat -> ChainModel.at_ z j = s_zvec S j) /\ (List.length k = s_nk S /\ forall j, (j < s_nk S)%nat -> ChainModel.at_ k j = s_kvec S j) /\
    (List.length mass = s_nm S /\ forall j, (j < s_nm S)%nat -> ChainModel.at_ mass j = s_mass S j).
  Proof.
    unfold lk_read. intros E. apply bind_inv in E; destruct E as (ms & Em & E). apply bind_inv in E; destruct E as (zs & Ez & E). apply bind_inv in E; destruct E as (dn & Ed & E).
    apply bind_inv in E; destruct E as (mb & _ & E). apply bind_inv in E; destruct E as (zb & _ & E). apply bind_inv in E; destruct E as (hb & Eb & E).
    apply bind_inv in E; destruct E as (zu & _ & E). apply bind_inv in E; destruct E as (mu & _ & E). apply bind_inv in E; destruct E as (ks & Ek & E). apply bind_inv in E; destruct E as (u1 & _ & E).
    apply bind_inv in E; destruct E as (raw & Er & E). apply bind_inv in E; destruct E as (zg & Eg & E). apply bind_inv in E; destruct E as (d & Egd & E). apply bind_inv in E; destruct E as (u2 & _ & E).
    apply bind_inv in E; destruct E as (nl' & En & E). apply bind_inv in E; destruct E as (pl' & Ep & E). apply bind_inv in E; destruct E as (B & EB & E).
    apply bind_inv in E; destruct E as (rho & Erho & E). apply bind_inv in E; destruct E as (fnu & Ef & E). apply bind_inv in E; destruct E as (oc & Eoc & E).
    apply bind_inv in E; destruct E as (om & Eom & E). apply bind_inv in E; destruct E as (ob & Eob & E). apply bind_inv in E; destruct E as (s8 & E8 & E). apply bind_inv in E; destruct E as (ne & Ene & E).
    injection E as <- <- <- <- <-. apply array_is in Em, Ez, Ek, Eg. apply sized_is in Egd. apply sized_table_is in Ed, Eb.
    destruct (holds_list _ _ _ _ (hg_mass _ _ _ _ _ _ HG) Em) as [LM VM]. destruct (holds_list _ _ _ _ (hg_z _ _ _ _ _ _ HG) Ez) as [LZ VZ]. destruct (holds_list _ _ _ _ (hg_k _ _ _ _ _ _ HG) Ek) as [LK VK].
    assert (PL : within_grid S pl' pl).
    { destruct (hg_lin _ _ _ _ _ _ HG) as (r & PS & D). pose proof (power_alike _ _ _ _ _ _ _ PS VZ VK Er) as RA. unfold meads in Ep. rewrite orb_comm in Ep.
      destruct (kc_dewiggle c || _)%bool; [now apply (D ks raw)|]. injection Ep as <-. intros j i J I. rewrite RA by assumption. now apply D. }
    split; [|split; [|split; [|split; [|split; [|auto]]]]].
    - destruct (hg_growth _ _ _ _ _ _ HG) as (zg' & d' & G1 & G2 & G3). rewrite Eg in G1. rewrite Egd in G2. injection G1 as <-. injection G2 as <-.
      destruct (hg_rho _ _ _ _ _ _ HG) as (rho' & R1 & R2). rewrite (reads_num _ _ _ _ _ R1 Erho).
      rewrite (reads_num _ _ _ _ _ (hg_oc _ _ _ _ _ _ HG) Eoc), (reads_num _ _ _ _ _ (hg_om _ _ _ _ _ _ HG) Eom), (reads_num _ _ _ _ _ (hg_ob _ _ _ _ _ _ HG) Eob).
      constructor; cbn; try assumption; try reflexivity; try (exact (hg_some _ _ _ _ _ _ HG)); try (exact (hg_udm _ _ _ _ _ _ HG)); try (exact (hg_usat _ _ _ _ _ _ HG)).
      + intros j m J M. eapply holds_rows; [exact (hg_dn _ _ _ _ _ _ HG)|exact Ed|exact J|exact M].
      + intros j m J M. eapply holds_rows; [exact (hg_b _ _ _ _ _ _ HG)|exact Eb|exact J|exact M].
      + intros j J. rewrite VZ by exact J. now apply G3.
    - cbn. exact (reads_num _ _ _ _ _ (hg_fnu _ _ _ _ _ _ HG) Ef).
    - intros MT Hm j J. destruct (mead_mode Hm) as [NB ME]. rewrite MT, NB, ME in E8, Ene. cbn in E8, Ene. apply sized_is in E8, Ene. destruct (hg_smooth _ _ _ _ _ _ HG Hm) as [H8 Hn].
      cbn. split; [now apply (holds_list _ _ _ _ H8 E8)|now apply (holds_list _ _ _ _ Hn Ene)].
    - intros Hm. destruct (hg_beta _ _ _ _ _ _ HG Hm) as (B0 & B' & N & BE & V). apply bnl_mode in Hm. rewrite Hm, N in EB. injection EB as <-. exists B'. split; [exact BE|]. intros j i m1 m2 J I M1 M2. cbn. now apply V.
    - intros RE. destruct (hg_nl _ _ _ _ _ _ HG RE) as (pn & N & PS). exists pn. split; [exact N|]. rewrite RE in En. exact (power_alike _ _ _ _ _ _ _ PS VZ VK En).
  Qed.

  (** The profile of the matter power. *)
  Lemma profile_read x nb W : halos_alike x S pl -> x_fnu x = 0 -> baryons_agree c b S nb -> lk_profile c b x = Ok (Some W) -> profile_alike W (profile_mm S) S nb.
  Proof.
    intros H F BA E. unfold lk_profile in E. destruct (kc_matter c); [|discriminate]. unfold profile_mm. rewrite (aa_ingr _ _ HA). unfold ingredients_of, baryons_agree in *.
    destruct (kc_mead c) as [[| |]|].
    - apply bind_inv in E. destruct E as (t & T & E). injection E as <-. rewrite (reads_num _ _ _ _ _ BA T). now apply feedback_alike with pl.
    - injection E as <-. rewrite F. now apply matter_alike with pl.
    - destruct BA as ((m & z & t & M & Z & T & V) & mb & R & MB). apply bind_inv in E. destruct E as (f & Ef & E). apply bind_inv in E. destruct E as (v & Ev & E). injection E as <-.
      rewrite (reads_num _ _ _ _ _ R Ev). apply obs_alike with pl; [exact H|exact F|exact MB|].
      unfold lk_fstar_mm in Ef. destruct (has_value b (kc_hod c) "f_star_extended"); [|discriminate]. binds Ef. apply array_is in A, A0. apply table_is in A1. rewrite M in A. rewrite Z in A0. rewrite T in A1. injection A as <-. injection A0 as <-. injection A1 as <-.
      destruct (fits z m t); [|discriminate]. injection Ef as <-. intros j i J I. rewrite (ha_mass _ _ _ H), (ha_z _ _ _ H) by assumption. now apply V.
    - injection E as <-. rewrite F. now apply matter_alike with pl.
  Qed.

  (** A bin. *)
  Lemma tail_suffix n nb t : bin_tail n nb t -> t = bin_suffix n nb.
  Proof. unfold bin_suffix. intros [[-> ->]|[N ->]]; [reflexivity|]. apply Z.eqb_neq in N. rewrite ?N. now destruct (Z.eqb n 1). Qed.
  Lemma curve_alike s nme f zs zq g v : curve_says b s nme f zs S g -> (forall j, (j < s_nz S)%nat -> ChainModel.at_ zq j = s_zvec S j) -> b s nme = Some (BArr v) ->
    forall j, (j < s_nz S)%nat -> interp1d f (List.length zs) (ChainModel.at_ zs) (ChainModel.at_ v) (ChainModel.at_ zq j) = g j.
  Proof. intros (v' & E & V) Z E' j J. rewrite E in E'. injection E' as <-. rewrite Z by exact J. now apply V. Qed.
  Lemma rows_alike s nme zs zq g t : table_says b s nme zs S g -> (forall j, (j < s_nz S)%nat -> ChainModel.at_ zq j = s_zvec S j) -> b s nme = Some (BTab t) ->
    forall j m, (j < s_nz S)%nat -> (m < s_nm S)%nat -> interp1d Extrapolate (List.length zs) (ChainModel.at_ zs) (fun e => entry t e m) (ChainModel.at_ zq j) = g j m.
  Proof. intros (v' & E & V) Z E' j m J M. rewrite E in E'. injection E' as <-. rewrite Z by exact J. now apply V. Qed.
  Definition same_axis (l : list R) (n : nat) (f : A1) : Prop := List.length l = n /\ forall j, (j < n)%nat -> ChainModel.at_ l j = f j.
  Lemma scaling_read s nme beta mp (q : Prop) avg S' nb p : scaling_says b s nme beta mp q -> by_mass b s nme = Ok p -> (q -> forall j, (j < s_nz S')%nat -> avg j = mass_avg S' nb j) ->
    scaling_alike p beta mp avg S' nb.
  Proof.
    intros (v & I & D) E Q. unfold by_mass in E. rewrite I in E. destruct (String.eqb v "halo_mass").
    - destruct D as (e & m & -> & -> & R1 & R2 & A). binds E. injection E as <-. cbn. rewrite (reads_num _ _ _ _ _ R1 A0), (reads_num _ _ _ _ _ R2 A1). auto.
    - injection E as <-. exact D.
  Qed.
  Lemma bin_alike_read n nb z k mass x W h : halos_alike x S pl -> x_fnu x = 0 -> same_axis z (s_nz S) (s_zvec S) -> same_axis k (s_nk S) (s_kvec S) -> same_axis mass (s_nm S) (s_mass S) ->
    bin_read c n nb z k mass x W b = Ok h -> occupation_agrees c b n nb S ->
    bin_alike h S nb /\ (kc_align c = true -> alignment_agrees c b n nb S -> ia_alike h S nb) /\
    ((forall W', W = Some W' -> profile_alike W' (profile_mm S) S nb) -> stars_agree c b n nb S -> profile_alike (bi_W h) (profile_xm S) S nb) /\
    (kc_gg c = true -> poisson_agrees c b S -> forall po, poisson_func (s_poisson S) (s_mass S) = Ok po -> forall m, (m < s_nm S)%nat -> bi_po h m = po m).
  Proof.
    intros H F [LZ VZ] [LK VK] [LM VM] E (t & zs & T & Z & HNc & HNs & Hnc & Hns & Hfc & Hfs). pose proof (tail_suffix _ _ _ T) as ->. unfold bin_read in E.
    apply bind_inv in E. destruct E as (tt_ & EH & E). unfold lk_hods in EH. cbv zeta in EH. 
    apply bind_inv in EH; destruct EH as (m0 & _ & EH). apply bind_inv in EH; destruct EH as (zh & Ez & EH). apply bind_inv in EH; destruct EH as (Nc & E1 & EH). apply bind_inv in EH; destruct EH as (Ns & E2 & EH).
    apply bind_inv in EH; destruct EH as (nc & E3 & EH). apply bind_inv in EH; destruct EH as (ns & E4 & EH). apply bind_inv in EH; destruct EH as (fc & E5 & EH). apply bind_inv in EH; destruct EH as (fs & E6 & EH).
    apply bind_inv in EH; destruct EH as (avg & E7 & EH). apply bind_inv in EH; destruct EH as (u & _ & EH). apply bind_inv in EH; destruct EH as (star & E8 & EH). apply bind_inv in EH; destruct EH as (u' & _ & EH). injection EH as <-.
    apply array_is in Ez. rewrite Z in Ez. injection Ez as <-. apply sized_table_is in E1, E2. apply sized_is in E3, E4, E5, E6, E7.
    apply bind_inv in E; destruct E as (W1 & EW & E). apply bind_inv in E; destruct E as (a & EA & E). apply bind_inv in E; destruct E as (po & EP & E). injection E as <-.
    split; [|split; [|split]].
    - constructor; cbn [bi_Nc bi_Ns bi_nc bi_ns bi_fc bi_fs]; [exact (rows_alike _ _ _ _ _ _ HNc VZ E1)|exact (rows_alike _ _ _ _ _ _ HNs VZ E2)|exact (curve_alike _ _ _ _ _ _ _ Hnc VZ E3)|exact (curve_alike _ _ _ _ _ _ _ Hns VZ E4)|
        exact (curve_alike _ _ _ _ _ _ _ Hfc VZ E5)|exact (curve_alike _ _ _ _ _ _ _ Hfs VZ E6)].
    - intros AL (GI & (nm & nk & mm & kk & V & Nm & Nk & HV & VV) & SC & SS). unfold lk_ia in EA. rewrite AL in EA. apply bind_inv in EA; destruct EA as (gi & Egi & EA). apply bind_inv in EA; destruct EA as (w & Ew & EA).
      apply bind_inv in EA; destruct EA as (sat & Es & EA). apply bind_inv in EA; destruct EA as (cen & Ec & EA). injection EA as <-. apply sized_is in Egi.
      assert (MM : mean_mass_says c b n nb S -> forall j, (j < s_nz S)%nat -> interp1d (FillValue 0) (List.length zs) (ChainModel.at_ zs) (ChainModel.at_ avg) (ChainModel.at_ z j) = mass_avg S nb j).
      { intros (t' & zs' & T' & Z' & C). pose proof (tail_suffix _ _ _ T') as ->. rewrite Z in Z'. injection Z' as <-. eapply curve_alike; eauto. }
      constructor; cbn.
      + intros j J. now apply (holds_list _ _ _ _ GI Egi).
      + intros j i m J I M. rewrite LZ in Ew. rewrite (read_back b _ _ _ _ _ _ V _ _ Nm Nk HV) in Ew. injection Ew as <-.
        assert (X : nth j (map (fun j => map (fun x => map (fun y => upsampled_hankel nm mm nk kk (V j) y x) k) mass) (seq 0 (s_nz S))) [] = map (fun x => map (fun y => upsampled_hankel nm mm nk kk (V j) y x) k) mass).
        { rewrite (nth_indep _ [] (map (fun x => map (fun y => upsampled_hankel nm mm nk kk (V 0%nat) y x) k) mass)) by now rewrite map_length, seq_length. rewrite (map_nth (fun j => map (fun x => map (fun y => upsampled_hankel nm mm nk kk (V j) y x) k) mass)), seq_nth by assumption. reflexivity. }
        rewrite X. unfold entry. rewrite (nth_indep _ [] (map (fun y => upsampled_hankel nm mm nk kk (V j) y 0) k)) by now rewrite map_length, LM. rewrite (map_nth (fun x => map (fun y => upsampled_hankel nm mm nk kk (V j) y x) k)).
        rewrite (nth_indep _ 0 (upsampled_hankel nm mm nk kk (V j) 0 (nth m mass 0))) by now rewrite map_length, LK. rewrite (map_nth (fun y => upsampled_hankel nm mm nk kk (V j) y (nth m mass 0))).
        rewrite <- VV by assumption. rewrite <- VK, <- VM by assumption. reflexivity.
      + eapply scaling_read; [exact SC|exact Ec|exact MM].
      + eapply scaling_read; [exact SS|exact Es|exact MM].
    - intros HW ST. cbn [bi_W]. unfold profile_xm. rewrite (aa_ingr _ _ HA), (aa_pm _ _ HA). unfold ingredients_of, stars_agree in *.
      assert (OBS : (kc_mead c = Some FitFeedback \/ kc_pm c = true) -> forall mb, block_num b "halo_model_parameters" "m_b" = Ok mb -> profile_alike (W_obs x (pow10 mb) (fun j i => interp1d Extrapolate (List.length zs) (ChainModel.at_ zs) (fun e => entry star e i) (ChainModel.at_ z j))) (matter_profile_obs S (fstar S)) S nb).
      { intros Q mb Emb. destruct (ST Q) as (t' & zs' & mb' & T' & Z' & ST' & R & MB). pose proof (tail_suffix _ _ _ T') as ->. rewrite Z in Z'. injection Z' as <-. rewrite (reads_num _ _ _ _ _ R Emb).
        apply obs_alike with pl; [exact H|exact F|exact MB|]. destruct ST' as (ts & TS & VS). unfold table_at at 1 in E8. rewrite TS in E8. apply sized_table_is in E8.
        apply rows_alike with (s := kc_hod c) (nme := ("f_star" ++ bin_suffix n nb)%string); [exists ts; auto|exact VZ|exact E8]. }
      pose proof (aa_pm_only _ _ HA) as PO. pose proof (aa_ingr _ _ HA) as IN. unfold profile_mm in HW. unfold ingredients_of in *. rewrite IN in HW.
      destruct (kc_mead c) as [[| |]|] eqn:KM; destruct (kc_pm c) eqn:PM; try (destruct (PO eq_refl); discriminate);
        try (apply bind_inv in EW; destruct EW as (mb & Emb & EW); injection EW as <-; apply OBS; [auto|exact Emb]);
        (destruct W as [W'|]; [injection EW as <-; now apply HW|discriminate EW]).
    - intros GG PA po' EP' m M. cbn [bi_po]. rewrite GG in EP. unfold lk_poisson in EP. apply bind_inv in EP; destruct EP as (p & Ep & EP). apply bind_inv in EP; destruct EP as (m1 & Em1 & EP). apply bind_inv in EP; destruct EP as (sl & Esl & EP).
      assert (RB : forall nme v o, reads b "pk_parameters" nme v -> block_or_none b "pk_parameters" nme = Ok o -> o = Some v) by (intros nme v o [R|(q & R & ->)]; unfold block_or_none; rewrite R; congruence).
      assert (MB : forall nme v o, may_read b "pk_parameters" nme v -> block_or_none b "pk_parameters" nme = Ok o -> o = v) by (intros nme [v|] o R B0; [exact (RB _ _ _ R B0)|cbn in R; unfold block_or_none in B0; rewrite R in B0; congruence]).
      unfold poisson_agrees in PA. destruct (s_poisson S) as [v|v M0 slope]; cbn in EP'.
      + injection EP' as <-. destruct PA as [[PT R]|(N1 & N2 & ->)].
        * rewrite PT, (RB _ _ _ R Ep) in EP. cbn in EP. injection EP as <-. reflexivity.
        * apply String.eqb_neq in N1, N2. rewrite N1, N2 in EP. injection EP as <-. ring.
      + destruct PA as (PT & R & R1 & R2). rewrite PT, (RB _ _ _ R Ep), (MB _ _ _ R1 Em1), (MB _ _ _ R2 Esl) in EP. cbn in EP. destruct M0 as [M0|], slope as [slope|]; try discriminate. injection EP as <-. injection EP' as <-. now rewrite VM.
  Qed.
  Lemma effective_read z x b' pe : halos_alike x S pl -> pk_lin S = Ok pl -> same_axis z (s_nz S) (s_zvec S) -> (forall m, ~ matter_section c "matter_power_nl" -> b' "matter_power_nl"%string m = b "matter_power_nl"%string m) ->
    (forall m, b' "pk_parameters"%string m = b "pk_parameters"%string m) -> effective_agrees c b S -> lk_effective c b' z x = Ok pe -> effective S pe.
  Proof.
    intros H P [LZ VZ] FR FP EA E Hm. destruct (EA Hm) as (NM & (pn & N & PS) & T). unfold lk_effective in E.
    assert (KF : kc_fortuna c = true). { pose proof (aa_mode _ _ HA) as M. rewrite Hm in M. unfold mode_of in M. destruct (kc_bnl c), (kc_fortuna c), (kc_mead c) as [[| |]|]; try discriminate M; reflexivity. }
    rewrite KF in E. apply bind_inv in E. destruct E as (p & Ep & E). apply bind_inv in E. destruct E as (tv & Et & E). injection E as <-.
    unfold peff_arr, peff. rewrite Hm. cbn [is_fortuna]. rewrite P, N. cbn [bind]. eexists. split; [reflexivity|]. cbn beta. intros j i J I.
    assert (TV : tv = s_t_eff S).
    { unfold block_num in Et. rewrite FP in Et. destruct T as [[T ->]|[T|(q & T & ->)]]; rewrite T in Et; congruence. }
    rewrite TV, (ha_pl _ _ _ H) by assumption. f_equal. f_equal. 
    assert (PS' : power_says b' "matter_power_nl" S pn). { destruct PS as (a & d & e & X & Y & V & U). exists a, d, e. rewrite !FR by exact NM. auto. }
    eapply power_alike; [exact PS'|exact VZ|exact (ha_k _ _ _ H)|exact Ep|exact J|exact I].
  Qed.
End Reading.
