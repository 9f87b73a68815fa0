(** Proofs of the relational properties: the spectra at one bin, redshift and wavenumber
    are computed from the inputs at that bin, redshift and wavenumber. *)
From Coq Require Import FunctionalExtensionality.
From Verif Require Import Base Spec Quad Interp HodModel HodSpec Dewiggle PkModel PkSpec BaseFacts QuadFacts
  InterpFacts NumFacts HodFacts HodFacts2 PkFacts PkFacts2 RelSpec RelFacts.
Open Scope R_scope.

(** Options on which the success of a request depends agree. *)
Record same_options (S' S : spectra) : Prop := {
  so_mode : s_mode S' = s_mode S; so_ingr : s_ingr S' = s_ingr S; so_response : s_response S' = s_response S;
  so_pointmass : s_pointmass S' = s_pointmass S; so_nm : s_nm S' = s_nm S; so_mass : s_mass S' = s_mass S;
  so_poisson : s_poisson S' = s_poisson S; so_k1 : s_k1 S' = s_k1 S; so_k2 : s_k2 S' = s_k2 S;
  so_k1_ia : s_k1_ia S' = s_k1_ia S; so_k2_ia : s_k2_ia S' = s_k2_ia S; so_t_eff : s_t_eff S' = s_t_eff S;
  so_mb : s_mb S' = s_mb S; so_logT : s_logT S' = s_logT S; so_ob : s_ob S' = s_ob S; so_oc : s_oc S' = s_oc S;
  so_om : s_om S' = s_om S;
  so_bc : s_beta_cen S' = s_beta_cen S; so_mc : s_mpivot_cen S' = s_mpivot_cen S;
  so_bs : s_beta_sat S' = s_beta_sat S; so_ms : s_mpivot_sat S' = s_mpivot_sat S;
  so_lin : forall pl, pk_lin S = Ok pl -> exists pl', pk_lin S' = Ok pl';
  so_nl : forall pn, pk_nl S = Ok (Some pn) -> exists pn', pk_nl S' = Ok (Some pn');
  so_beta : forall B, beta_nl S = Ok B -> exists B', beta_nl S' = Ok B' }.

(** Matter inputs agree at the given indices. *)
Record same_matter (S' S : spectra) (b' z' k' b z k : nat) : Prop := {
  sm_dn : forall m, s_dndlnm S' z' m = s_dndlnm S z m; sm_bias : forall m, s_bias S' z' m = s_bias S z m;
  sm_rho : s_rho S' z' = s_rho S z; sm_growth : s_growth S' z' = s_growth S z;
  sm_s8 : s_sigma8z S' z' = s_sigma8z S z; sm_neff : s_neff S' z' = s_neff S z;
  sm_z : s_zvec S' z' = s_zvec S z; sm_k : s_kvec S' k' = s_kvec S k;
  sm_u : forall m, u_dm S' z' k' m = u_dm S z k m;
  sm_fmm : forall m, fstar_mm S' b' z' m = fstar_mm S b z m;
  sm_lin : forall pl pl', pk_lin S = Ok pl -> pk_lin S' = Ok pl' -> pl' z' k' = pl z k;
  sm_nl : forall pn pn', pk_nl S = Ok (Some pn) -> pk_nl S' = Ok (Some pn') -> pn' z' k' = pn z k;
  sm_beta : forall B B', beta_nl S = Ok B -> beta_nl S' = Ok B' -> forall m1 m2, B' z' k' m1 m2 = B z k m1 m2 }.

(** Galaxy inputs agree at the given indices. *)
Record same_galaxies (S' S : spectra) (b' z' k' b z k : nat) : Prop := {
  sg_us : forall m, u_sat S' z' k' m = u_sat S z k m; sg_w : forall m, s_wkm S' z' k' m = s_wkm S z k m;
  sg_gi : s_gi S' z' = s_gi S z;
  sg_fc : sF_c S' b' z' = sF_c S b z; sg_fs : sF_s S' b' z' = sF_s S b z;
  sg_Nc : forall m, sN_c S' b' z' m = sN_c S b z m; sg_Ns : forall m, sN_s S' b' z' m = sN_s S b z m;
  sg_nc : sn_c S' b' z' = sn_c S b z; sg_ns : sn_s S' b' z' = sn_s S b z;
  sg_f : forall m, fstar S' b' z' m = fstar S b z m; sg_m : mass_avg S' b' z' = mass_avg S b z }.

(** ** Success *)
Section Success.
  Variables S' S : spectra.
  Hypothesis O : same_options S' S.
  Lemma so_INL U V U' V' B B' i : I_NL S U V B = Ok i -> exists i', I_NL S' U' V' B' = Ok i'.
  Proof.
    unfold I_NL. rewrite (so_nm _ _ O), (so_mass _ _ O). intros H. inv_bind H. eexists. reflexivity.
  Qed.
  Lemma so_mm_raw r : power_spectrum_mm_raw S = Ok r -> exists r', power_spectrum_mm_raw S' = Ok r'.
  Proof.
    unfold power_spectrum_mm_raw. intros H. inv_bind H. destruct (so_lin _ _ O _ E) as [pl' ->]. cbn [bind].
    rewrite (so_mode _ _ O), (so_ingr _ _ O). destruct (s_mode S).
    - inv_bind H. destruct (so_beta _ _ O _ E0) as [B' ->]. cbn [bind]. inv_bind H.
      destruct (so_INL _ _ (matter_profile_2h S') (matter_profile_2h S') _ B' _ E1) as [i' ->]. eexists; reflexivity.
    - destruct (s_ingr S); try discriminate H; eexists; reflexivity.
    - eexists; reflexivity.
    - eexists; reflexivity.
  Qed.
  Lemma so_respond r0 r0' r : respond S r0 = Ok r -> exists r', respond S' r0' = Ok r'.
  Proof.
    unfold respond. rewrite (so_response _ _ O). destruct (s_response S); [|eexists; reflexivity].
    intros H. inv_bind H. inv_bind H. destruct a as [pn|]; [|discriminate H].
    destruct (so_nl _ _ O _ E) as [pn' ->]. cbn [bind]. destruct (so_mm_raw _ E0) as [mm' ->]. cbn [bind]. eexists; reflexivity.
  Qed.
  Lemma so_mm r : power_spectrum_mm S = Ok r -> exists r', power_spectrum_mm S' = Ok r'.
  Proof.
    unfold power_spectrum_mm. rewrite (so_response _ _ O). destruct (s_response S); [|apply so_mm_raw].
    intros H. inv_bind H. destruct a as [pn|]; [|discriminate H].
    destruct (so_nl _ _ O _ E) as [pn' ->]. eexists; reflexivity.
  Qed.
  Lemma so_peff p : peff_arr S = Ok p -> exists p', peff_arr S' = Ok p'.
  Proof.
    unfold peff_arr, peff. rewrite (so_mode _ _ O). destruct (is_fortuna (s_mode S)); [|discriminate].
    intros H. destruct (pk_lin S) as [pl|] eqn:E; [|discriminate H]. cbn [bind] in H.
    destruct (pk_nl S) as [[pn|]|] eqn:E0; try discriminate H.
    destruct (so_lin _ _ O _ E) as [pl' ->]. cbn [bind]. destruct (so_nl _ _ O _ E0) as [pn' ->]. eexists; reflexivity.
  Qed.
  Ltac step_ok H :=
    match type of H with
    | bind (pk_lin S) _ = _ => let E := fresh in destruct (pk_lin S) eqn:E; [|discriminate H];
        let p := fresh in destruct (so_lin _ _ O _ E) as [p ->]; cbn [bind] in *
    | bind (beta_nl S) _ = _ => let E := fresh in destruct (beta_nl S) eqn:E; [|discriminate H];
        let p := fresh in destruct (so_beta _ _ O _ E) as [p ->]; cbn [bind] in *
    | bind (peff_arr S) _ = _ => let E := fresh in destruct (peff_arr S) eqn:E; [|discriminate H];
        let p := fresh in destruct (so_peff _ E) as [p ->]; cbn [bind] in *
    | bind (poisson_func _ _) _ = _ => rewrite ?(so_poisson _ _ O), ?(so_mass _ _ O); destruct (poisson_func (s_poisson S) (s_mass S)); [|discriminate H];
        cbn [bind] in *
    | bind (I_NL S ?U ?V ?B) _ = _ => let E := fresh in destruct (I_NL S U V B) eqn:E; [|discriminate H];
        match goal with |- context [I_NL S' ?U' ?V' ?B'] =>
          let p := fresh in destruct (so_INL U V U' V' B B' _ E) as [p ->]; cbn [bind] in * end
    end.
  Lemma so_opt U V U' V' i :
    (if is_bnl (s_mode S) then bind (beta_nl S) (I_NL S U V) else Ok zero3) = Ok i ->
    exists i', (if is_bnl (s_mode S) then bind (beta_nl S') (I_NL S' U' V') else Ok zero3) = Ok i'.
  Proof.
    destruct (is_bnl (s_mode S)); [|eexists; reflexivity]. intros H. inv_bind H.
    destruct (so_beta _ _ O _ E) as [B' ->]. cbn [bind]. exact (so_INL _ _ U' V' _ B' _ H).
  Qed.
  Lemma so_five x r : power_spectrum x S = Ok r -> exists r', power_spectrum x S' = Ok r'.
  Proof.
    destruct x; cbn [power_spectrum];
      [unfold power_spectrum_gg|unfold power_spectrum_gm|unfold power_spectrum_mi|unfold power_spectrum_ii|unfold power_spectrum_gi];
      rewrite ?(so_mode _ _ O); cbv zeta; intros H.
    1,2: repeat step_ok H; inv_bind H;
      match goal with E : (if _ then bind _ (I_NL S ?U ?V) else _) = Ok ?i |- context [bind (beta_nl S') (I_NL S' ?U' ?V')] =>
        destruct (so_opt U V U' V' i E) as [i' ->]; cbn [bind] end;
      eapply so_respond; exact H.
    all: destruct (s_mode S); repeat step_ok H; eapply so_respond; exact H.
  Qed.
End Success.

(** ** Values *)
Section Local.
  Variables (S' S : spectra) (b' z' k' b z k : nat).
  Hypothesis O : same_options S' S.
  Hypothesis M : same_matter S' S b' z' k' b z k.

  Ltac opts := rewrite ?(so_nm _ _ O), ?(so_mass _ _ O), ?(so_mb _ _ O), ?(so_logT _ _ O), ?(so_ob _ _ O), ?(so_oc _ _ O), ?(so_om _ _ O).

  Lemma lo_one_halo u v u' v' : (forall m, u' b' z' k' m = u b z k m) -> (forall m, v' b' z' k' m = v b z k m) ->
    one_halo S' u' v' b' z' k' = one_halo S u v b z k.
  Proof.
    intros Hu Hv. unfold one_halo. opts. apply simpson_pw. intros m. rewrite Hu, Hv, (sm_dn _ _ _ _ _ _ _ _ M). reflexivity.
  Qed.
  Lemma lo_A : A_term S' z' = A_term S z.
  Proof.
    unfold A_term. opts. f_equal. apply simpson_pw. intros m.
    rewrite (sm_bias _ _ _ _ _ _ _ _ M), (sm_dn _ _ _ _ _ _ _ _ M), (sm_rho _ _ _ _ _ _ _ _ M). reflexivity.
  Qed.
  Lemma lo_Im : Im_term S' z' k' = Im_term S z k.
  Proof.
    unfold Im_term. rewrite lo_A. opts. f_equal. apply simpson_pw. intros m.
    rewrite (sm_bias _ _ _ _ _ _ _ _ M), (sm_dn _ _ _ _ _ _ _ _ M), (sm_rho _ _ _ _ _ _ _ _ M), (sm_u _ _ _ _ _ _ _ _ M). reflexivity.
  Qed.
  Lemma lo_mat m : matter_profile S' b' z' k' m = matter_profile S b z k m.
  Proof. unfold matter_profile. opts. rewrite (sm_rho _ _ _ _ _ _ _ _ M), (sm_u _ _ _ _ _ _ _ _ M). reflexivity. Qed.
  Lemma lo_mat_fb m : matter_profile_fb S' b' z' k' m = matter_profile_fb S b z k m.
  Proof.
    unfold matter_profile_fb. opts. rewrite (sm_rho _ _ _ _ _ _ _ _ M), (sm_u _ _ _ _ _ _ _ _ M), (sm_z _ _ _ _ _ _ _ _ M). reflexivity.
  Qed.
  Lemma lo_mat_obs f f' m : (forall m, f' b' z' m = f b z m) ->
    matter_profile_obs S' f' b' z' k' m = matter_profile_obs S f b z k m.
  Proof.
    intros Hf. unfold matter_profile_obs. opts.
    rewrite (sm_rho _ _ _ _ _ _ _ _ M), (sm_u _ _ _ _ _ _ _ _ M), Hf. reflexivity.
  Qed.
  Lemma lo_mm m : profile_mm S' b' z' k' m = profile_mm S b z k m.
  Proof.
    unfold profile_mm. rewrite (so_ingr _ _ O). destruct (s_ingr S);
      [apply lo_mat_fb|apply lo_mat|apply lo_mat_obs; apply (sm_fmm _ _ _ _ _ _ _ _ M)|apply lo_mat].
  Qed.
  Lemma lo_t1 : t1 S' k' = t1 S k.
  Proof. unfold t1. rewrite (so_k1 _ _ O), (sm_k _ _ _ _ _ _ _ _ M). reflexivity. Qed.
  Lemma lo_t2 : t2 S' k' = t2 S k.
  Proof. unfold t2. rewrite (so_k2 _ _ O), (sm_k _ _ _ _ _ _ _ _ M). reflexivity. Qed.
  Lemma lo_t1i : t1i S' k' = t1i S k.
  Proof. unfold t1i. rewrite (so_k1_ia _ _ O), (sm_k _ _ _ _ _ _ _ _ M). reflexivity. Qed.
  Lemma lo_t2i : t2i S' k' = t2i S k.
  Proof. unfold t2i. rewrite (so_k2_ia _ _ O), (sm_k _ _ _ _ _ _ _ _ M). reflexivity. Qed.

  Lemma lo_INL U V U' V' B B' i i' : (forall m, U' b' z' k' m = U b z k m) -> (forall m, V' b' z' k' m = V b z k m) ->
    (forall m1 m2, B' z' k' m1 m2 = B z k m1 m2) ->
    I_NL S U V B = Ok i -> I_NL S' U' V' B' = Ok i' -> i' b' z' k' = i b z k.
  Proof.
    intros HU HV HB. unfold I_NL. opts. intros H H'. inv_bind H. inv_ok H. cbn [bind] in H'. inv_ok H'.
    unfold I_NL_w. opts. rewrite lo_A, (sm_rho _ _ _ _ _ _ _ _ M). cbv zeta.
    assert (Ew : forall m, w_bnl S' z' m = w_bnl S z m).
    { intros. unfold w_bnl. opts. rewrite (sm_bias _ _ _ _ _ _ _ _ M), (sm_dn _ _ _ _ _ _ _ _ M). reflexivity. }
    rewrite !HU, !HV, !HB. f_equal; [f_equal; [f_equal|]|].
    - do 2 f_equal. apply trap_pw. intros m. unfold I12_part. rewrite Ew, HV, HB. reflexivity.
    - do 2 f_equal. apply trap_pw. intros m. unfold I21_part. rewrite Ew, HU, HB. reflexivity.
    - apply trap_pw. intros m. f_equal; [|apply HU]. apply trap_pw. intros m2. unfold I22_part.
      rewrite !Ew, HV, HB. reflexivity.
  Qed.

  Lemma lo_mm_raw r r' : power_spectrum_mm_raw S = Ok r -> power_spectrum_mm_raw S' = Ok r' -> same_at r' b' z' k' r b z k.
  Proof.
    unfold power_spectrum_mm_raw. intros H H'. inv_bind H. inv_bind H'. rename a0 into pl'.
    pose proof (sm_lin _ _ _ _ _ _ _ _ M _ _ E E0) as Epl.
    rewrite (so_mode _ _ O), (so_ingr _ _ O) in H'. destruct (s_mode S).
    - inv_bind H. inv_bind H'. inv_bind H. inv_bind H'.
      pose proof (sm_beta _ _ _ _ _ _ _ _ M _ _ E1 E2) as EB.
      pose proof (lo_INL _ _ _ _ _ _ _ _ lo_mat lo_mat EB E3 E4) as Ei.
      inv_ok H. inv_ok H'. unfold same_at. cbn [pk_1h pk_2h pk_tot pk_bias option_map].
      rewrite Epl, Ei, lo_Im, lo_t1, (lo_one_halo _ _ _ _ lo_mm lo_mm). repeat split.
    - destruct (s_ingr S); try discriminate H; inv_ok H; inv_ok H'; unfold same_at; cbn [pk_1h pk_2h pk_tot pk_bias option_map];
        rewrite Epl, (sm_k _ _ _ _ _ _ _ _ M), (sm_s8 _ _ _ _ _ _ _ _ M), (sm_neff _ _ _ _ _ _ _ _ M),
          (lo_one_halo _ _ _ _ lo_mm lo_mm); repeat split.
    - inv_ok H. inv_ok H'. unfold same_at. cbn [pk_1h pk_2h pk_tot pk_bias option_map].
      rewrite Epl, lo_Im, lo_t1, lo_t2, (lo_one_halo _ _ _ _ lo_mm lo_mm). repeat split.
    - inv_ok H. inv_ok H'. unfold same_at. cbn [pk_1h pk_2h pk_tot pk_bias option_map].
      rewrite Epl, lo_Im, lo_t1, lo_t2, (lo_one_halo _ _ _ _ lo_mm lo_mm). repeat split.
  Qed.
  Lemma lo_mm_full r r' : power_spectrum_mm S = Ok r -> power_spectrum_mm S' = Ok r' -> same_at r' b' z' k' r b z k.
  Proof.
    unfold power_spectrum_mm. rewrite (so_response _ _ O). destruct (s_response S); [|apply lo_mm_raw].
    intros H H'. inv_bind H. inv_bind H'. destruct a as [pn|]; [|discriminate H]. destruct a0 as [pn'|]; [|discriminate H'].
    inv_ok H. inv_ok H'. unfold same_at. cbn [pk_1h pk_2h pk_tot pk_bias option_map].
    rewrite (sm_nl _ _ _ _ _ _ _ _ M _ _ E E0). repeat split.
  Qed.
  Lemma lo_respond r0 r0' r r' : same_at r0' b' z' k' r0 b z k -> respond S r0 = Ok r -> respond S' r0' = Ok r' ->
    same_at r' b' z' k' r b z k.
  Proof.
    intros (H1 & H2 & Ht & Hb). unfold respond. rewrite (so_response _ _ O). destruct (s_response S); intros H H'.
    - inv_bind H. inv_bind H'. inv_bind H. inv_bind H'. destruct a as [pn|]; [|discriminate H]. destruct a0 as [pn'|]; [|discriminate H'].
      destruct (lo_mm_raw _ _ E1 E2) as (_ & _ & Em & _).
      inv_ok H. inv_ok H'. unfold same_at. cbn [pk_1h pk_2h pk_tot pk_bias option_map].
      rewrite (sm_nl _ _ _ _ _ _ _ _ M _ _ E E0), H1, H2, Ht, Em. repeat split. exact Hb.
    - inv_ok H. inv_ok H'. repeat split; assumption.
  Qed.
  Lemma lo_peff p p' : peff_arr S = Ok p -> peff_arr S' = Ok p' -> p' z' k' = p z k.
  Proof.
    unfold peff_arr, peff. rewrite (so_mode _ _ O). destruct (is_fortuna (s_mode S)); [|discriminate]. intros H H'.
    destruct (pk_lin S) as [pl|] eqn:E; [|discriminate H]. destruct (pk_lin S') as [pl'|] eqn:E'; [|discriminate H'].
    cbn [bind] in *. destruct (pk_nl S) as [[pn|]|] eqn:F; try discriminate H. destruct (pk_nl S') as [[pn'|]|] eqn:F'; try discriminate H'.
    cbn [bind] in *. inv_ok H. inv_ok H'.
    rewrite (so_t_eff _ _ O), (sm_lin _ _ _ _ _ _ _ _ M _ _ E E'), (sm_nl _ _ _ _ _ _ _ _ M _ _ F F'). reflexivity.
  Qed.

  Hypothesis G : same_galaxies S' S b' z' k' b z k.
  Lemma lo_cen m : cen_profile S' b' z' k' m = cen_profile S b z k m.
  Proof. unfold cen_profile. rewrite (sg_fc _ _ _ _ _ _ _ _ G), (sg_Nc _ _ _ _ _ _ _ _ G), (sg_nc _ _ _ _ _ _ _ _ G). reflexivity. Qed.
  Lemma lo_sat m : sat_profile S' b' z' k' m = sat_profile S b z k m.
  Proof.
    unfold sat_profile. rewrite (sg_fs _ _ _ _ _ _ _ _ G), (sg_Ns _ _ _ _ _ _ _ _ G), (sg_ns _ _ _ _ _ _ _ _ G), (sg_us _ _ _ _ _ _ _ _ G).
    reflexivity.
  Qed.
  Lemma lo_gal m : gal_profile S' b' z' k' m = gal_profile S b z k m.
  Proof. unfold gal_profile. rewrite lo_cen, lo_sat. reflexivity. Qed.
  Lemma lo_Ig p p' : (forall m, p' b' z' k' m = p b z k m) -> Ig_term S' p' b' z' k' = Ig_term S p b z k.
  Proof.
    intros Hp. unfold Ig_term. opts. apply simpson_pw. intros m.
    rewrite Hp, (sm_bias _ _ _ _ _ _ _ _ M), (sm_dn _ _ _ _ _ _ _ _ M). reflexivity.
  Qed.
  Lemma lo_Ic : Ic_term S' b' z' k' = Ic_term S b z k.
  Proof. apply lo_Ig, lo_cen. Qed.
  Lemma lo_Is : Is_term S' b' z' k' = Is_term S b z k.
  Proof. apply lo_Ig, lo_sat. Qed.
  Lemma lo_ms be mp : mass_scaling S' be mp b' z' = mass_scaling S be mp b z.
  Proof. unfold mass_scaling. rewrite (sg_m _ _ _ _ _ _ _ _ G). reflexivity. Qed.
  Lemma lo_C1 : C1 S' z' = C1 S z.
  Proof. unfold C1. rewrite (sg_gi _ _ _ _ _ _ _ _ G). reflexivity. Qed.
  Lemma lo_cen_al m : cen_align S' b' z' k' m = cen_align S b z k m.
  Proof.
    unfold cen_align. rewrite lo_ms, lo_C1, (sg_fc _ _ _ _ _ _ _ _ G), (sm_growth _ _ _ _ _ _ _ _ M), (so_mass _ _ O), (so_bc _ _ O), (so_mc _ _ O).
    reflexivity.
  Qed.
  Lemma lo_sat_al m : sat_align S' b' z' k' m = sat_align S b z k m.
  Proof.
    unfold sat_align. rewrite lo_ms, (sg_fs _ _ _ _ _ _ _ _ G), (sg_Ns _ _ _ _ _ _ _ _ G), (sg_ns _ _ _ _ _ _ _ _ G), (sg_w _ _ _ _ _ _ _ _ G),
      (so_bs _ _ O), (so_ms _ _ O). reflexivity.
  Qed.
  Lemma lo_gal_al m : gal_align S' b' z' k' m = gal_align S b z k m.
  Proof. unfold gal_align. rewrite lo_cen_al, lo_sat_al. reflexivity. Qed.
  Lemma lo_I_al p p' : (forall m, p' b' z' k' m = p b z k m) -> I_align S' p' b' z' k' = I_align S p b z k.
  Proof.
    intros Hp. unfold I_align. rewrite (lo_Ig p p' Hp), lo_A, Hp, (sm_rho _ _ _ _ _ _ _ _ M), (so_mass _ _ O). reflexivity.
  Qed.
  Lemma lo_Ic_al : Ic_align S' b' z' k' = Ic_align S b z k.
  Proof. apply lo_I_al, lo_cen_al. Qed.
  Lemma lo_Is_al : Is_align S' b' z' k' = Is_align S b z k.
  Proof. apply lo_I_al, lo_sat_al. Qed.
  Lemma lo_amp : amp_2h S' z' = amp_2h S z.
  Proof. unfold amp_2h. rewrite lo_C1, (sm_rho _ _ _ _ _ _ _ _ M), (sm_growth _ _ _ _ _ _ _ _ M). reflexivity. Qed.
  Lemma lo_amp2 : amp_2h_II S' z' = amp_2h_II S z.
  Proof. unfold amp_2h_II. rewrite lo_C1, (sm_rho _ _ _ _ _ _ _ _ M), (sm_growth _ _ _ _ _ _ _ _ M). reflexivity. Qed.
  Lemma lo_xm m : profile_xm S' b' z' k' m = profile_xm S b z k m.
  Proof.
    unfold profile_xm. rewrite (so_ingr _ _ O), (so_pointmass _ _ O). destruct (s_ingr S);
      [apply lo_mat_fb|apply lo_mat|apply lo_mat_obs; apply (sg_f _ _ _ _ _ _ _ _ G)|].
    destruct (s_pointmass S); [apply lo_mat_obs; apply (sg_f _ _ _ _ _ _ _ _ G)|apply lo_mat].
  Qed.

  Ltac values := unfold same_at; cbn [pk_1h pk_2h pk_tot pk_bias option_map];
    rewrite ?lo_Im, ?lo_t1, ?lo_t2, ?lo_t1i, ?lo_t2i, ?lo_Ic, ?lo_Is, ?lo_Ic_al, ?lo_Is_al, ?lo_amp, ?lo_amp2, ?(sg_fc _ _ _ _ _ _ _ _ G),
      ?(lo_one_halo _ _ _ _ lo_cen lo_sat), ?(lo_one_halo _ _ _ _ lo_cen lo_xm), ?(lo_one_halo _ _ _ _ lo_sat lo_xm),
      ?(lo_one_halo _ _ _ _ lo_xm lo_sat_al), ?(lo_one_halo _ _ _ _ lo_sat_al lo_sat_al), ?(lo_one_halo _ _ _ _ lo_cen lo_sat_al).

  Lemma lo_opt U V U' V' i i' : (forall m, U' b' z' k' m = U b z k m) -> (forall m, V' b' z' k' m = V b z k m) ->
    (if is_bnl (s_mode S) then bind (beta_nl S) (I_NL S U V) else Ok zero3) = Ok i ->
    (if is_bnl (s_mode S) then bind (beta_nl S') (I_NL S' U' V') else Ok zero3) = Ok i' -> i' b' z' k' = i b z k.
  Proof.
    intros HU HV. destruct (is_bnl (s_mode S)); intros H H'; [|inv_ok H; inv_ok H'; reflexivity].
    inv_bind H. inv_bind H'. exact (lo_INL _ _ _ _ _ _ _ _ HU HV (sm_beta _ _ _ _ _ _ _ _ M _ _ E E0) H H').
  Qed.

  Lemma lo_five x r r' : power_spectrum x S = Ok r -> power_spectrum x S' = Ok r' -> same_at r' b' z' k' r b z k.
  Proof.
    destruct x; cbn [power_spectrum]; intros H H'.
    - unfold power_spectrum_gg in *. rewrite (so_mode _ _ O), (so_poisson _ _ O), (so_mass _ _ O) in H'.
      inv_bind H. inv_bind H'. pose proof (sm_lin _ _ _ _ _ _ _ _ M _ _ E E0) as Epl.
      inv_bind H. cbn [bind] in H'. inv_bind H. inv_bind H'.
      pose proof (lo_opt _ _ _ _ _ _ lo_gal lo_gal E2 E3) as Ei.
      refine (lo_respond _ _ _ _ _ H H'). values.
      rewrite (lo_one_halo (fun b z k m => sat_profile S b z k m * a1 m) (sat_profile S)
        (fun b z k m => sat_profile S' b z k m * a1 m) (sat_profile S')) by (intros; rewrite ?lo_sat; reflexivity).
      rewrite Epl, Ei. destruct (is_bnl (s_mode S)); repeat split.
    - unfold power_spectrum_gm in *. rewrite (so_mode _ _ O) in H'.
      inv_bind H. inv_bind H'. pose proof (sm_lin _ _ _ _ _ _ _ _ M _ _ E E0) as Epl.
      inv_bind H. inv_bind H'. pose proof (lo_opt _ _ _ _ _ _ lo_gal lo_mat E1 E2) as Ei.
      refine (lo_respond _ _ _ _ _ H H'). values. rewrite Epl, Ei. destruct (is_bnl (s_mode S)); repeat split.
    - unfold power_spectrum_mi in *. rewrite (so_mode _ _ O) in H'. cbv zeta in *.
      destruct (s_mode S); inv_bind H; inv_bind H'.
      + pose proof (sm_lin _ _ _ _ _ _ _ _ M _ _ E E0) as Epl. inv_bind H. inv_bind H'. inv_bind H. inv_bind H'.
        pose proof (lo_INL _ _ _ _ _ _ _ _ lo_gal_al lo_mat (sm_beta _ _ _ _ _ _ _ _ M _ _ E1 E2) E3 E4) as Ei.
        refine (lo_respond _ _ _ _ _ H H'). values. rewrite Epl, Ei. repeat split.
      + pose proof (sm_lin _ _ _ _ _ _ _ _ M _ _ E E0) as Epl. refine (lo_respond _ _ _ _ _ H H'). values. rewrite Epl. repeat split.
      + pose proof (lo_peff _ _ E E0) as Epl. refine (lo_respond _ _ _ _ _ H H'). values. rewrite Epl. repeat split.
      + pose proof (sm_lin _ _ _ _ _ _ _ _ M _ _ E E0) as Epl. refine (lo_respond _ _ _ _ _ H H'). values. rewrite Epl. repeat split.
    - unfold power_spectrum_ii in *. rewrite (so_mode _ _ O) in H'. cbv zeta in *.
      destruct (s_mode S); inv_bind H; inv_bind H'.
      + pose proof (sm_lin _ _ _ _ _ _ _ _ M _ _ E E0) as Epl. inv_bind H. inv_bind H'.
        pose proof (sm_beta _ _ _ _ _ _ _ _ M _ _ E1 E2) as EB.
        inv_bind H. inv_bind H'. inv_bind H. inv_bind H'. inv_bind H. inv_bind H'.
        pose proof (lo_INL _ _ _ _ _ _ _ _ lo_sat_al lo_sat_al EB E3 E4) as Ei.
        pose proof (lo_INL _ _ _ _ _ _ _ _ lo_cen_al lo_cen_al EB E5 E6) as Ei2.
        pose proof (lo_INL _ _ _ _ _ _ _ _ lo_cen_al lo_sat_al EB E7 E8) as Ei3.
        refine (lo_respond _ _ _ _ _ H H'). values. rewrite Epl, Ei, Ei2, Ei3. repeat split.
      + pose proof (sm_lin _ _ _ _ _ _ _ _ M _ _ E E0) as Epl. refine (lo_respond _ _ _ _ _ H H'). values. rewrite Epl. repeat split.
      + pose proof (lo_peff _ _ E E0) as Epl. refine (lo_respond _ _ _ _ _ H H'). values. rewrite Epl. repeat split.
      + pose proof (sm_lin _ _ _ _ _ _ _ _ M _ _ E E0) as Epl. refine (lo_respond _ _ _ _ _ H H'). values. rewrite Epl. repeat split.
    - unfold power_spectrum_gi in *. rewrite (so_mode _ _ O) in H'. cbv zeta in *.
      destruct (s_mode S); inv_bind H; inv_bind H'.
      + pose proof (sm_lin _ _ _ _ _ _ _ _ M _ _ E E0) as Epl. inv_bind H. inv_bind H'.
        pose proof (sm_beta _ _ _ _ _ _ _ _ M _ _ E1 E2) as EB.
        inv_bind H. inv_bind H'. inv_bind H. inv_bind H'.
        pose proof (lo_INL _ _ _ _ _ _ _ _ lo_cen_al lo_cen EB E3 E4) as Ei.
        pose proof (lo_INL _ _ _ _ _ _ _ _ lo_sat_al lo_cen EB E5 E6) as Ei2.
        refine (lo_respond _ _ _ _ _ H H'). values. rewrite Epl, Ei, Ei2. repeat split.
      + pose proof (sm_lin _ _ _ _ _ _ _ _ M _ _ E E0) as Epl. refine (lo_respond _ _ _ _ _ H H'). values. rewrite Epl. repeat split.
      + pose proof (lo_peff _ _ E E0) as Epl. refine (lo_respond _ _ _ _ _ H H'). values. rewrite Epl. repeat split.
      + pose proof (sm_lin _ _ _ _ _ _ _ _ M _ _ E E0) as Epl. refine (lo_respond _ _ _ _ _ H H'). values. rewrite Epl. repeat split.
  Qed.
End Local.
