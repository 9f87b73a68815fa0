(** Proofs of the relational properties: abundance, units, other galaxies. *)
From Coq Require Import FunctionalExtensionality.
From Verif Require Import Base Spec Quad Interp HodModel HodSpec Dewiggle PkModel PkSpec BaseFacts QuadFacts
  InterpFacts NumFacts HodFacts HodFacts2 PkFacts PkFacts2 RelSpec RelFacts.
Open Scope R_scope.

(** ** Abundance *)
Section Abundance.
  Variables (a : R) (S : spectra).
  Hypothesis Ha : a <> 0.
  Notation S' := (with_abundance a S).
  Let Hctx : forall set, ctx_of S' set = ctx_scale a (ctx_of S set).
  Proof. reflexivity. Qed.

  Lemma ab_one_halo_plain u v b z k : one_halo S' u v b z k = a * one_halo S u v b z k.
  Proof.
    unfold one_halo. change (s_nm S') with (s_nm S). change (s_mass S') with (s_mass S).
    rewrite <- simpson_scal. apply simpson_pw. intros. cbn [with_abundance s_dndlnm]. unfold Rdiv. ring.
  Qed.
  Lemma ab_one_halo_l c u v b z k :
    one_halo S (fun b z k m => c * u b z k m) v b z k = c * one_halo S u v b z k.
  Proof. rewrite one_halo_sym, one_halo_scal_r, one_halo_sym. reflexivity. Qed.
  Lemma ab_cen : cen_profile S' = fun b z k m => / a * cen_profile S b z k m.
  Proof. apply cen_profile_scale; [exact Ha|exact Hctx|reflexivity|reflexivity]. Qed.
  Lemma ab_sat : sat_profile S' = fun b z k m => / a * sat_profile S b z k m.
  Proof. apply sat_profile_scale; [exact Ha|exact Hctx|reflexivity|reflexivity|reflexivity]. Qed.
  Lemma ab_Ic : Ic_term S' = Ic_term S.
  Proof. apply (Ic_term_scale a); reflexivity || exact Ha. Qed.
  Lemma ab_Is : Is_term S' = Is_term S.
  Proof. apply (Is_term_scale a); reflexivity || exact Ha. Qed.
  Lemma ab_fstar : fstar S' = fstar S.
  Proof. apply (fstar_scale a); reflexivity || exact Ha. Qed.
  Lemma ab_xm : profile_xm S' = profile_xm S.
  Proof. unfold profile_xm. rewrite ab_fstar. reflexivity. Qed.
  Lemma ab_sat_align : sat_align S' = fun b z k m => / a * sat_align S b z k m.
  Proof. apply sat_align_scale; reflexivity || exact Ha. Qed.

  Lemma ab_gg r : s_mode S <> Bnl -> s_response S = false -> power_spectrum_gg S = Ok r ->
    exists r', power_spectrum_gg S' = Ok r' /\ pk_bias r' = pk_bias r /\ forall b z k,
      pk_1h r' b z k = pk_1h r b z k / a /\ pk_2h r' b z k = pk_2h r b z k.
  Proof.
    intros Hm Hr H. unfold power_spectrum_gg in *.
    change (pk_lin S') with (pk_lin S). change (s_mode S') with (s_mode S).
    change (s_poisson S') with (s_poisson S). change (s_mass S') with (s_mass S).
    assert (Eb : is_bnl (s_mode S) = false) by (destruct (s_mode S) eqn:Em0; congruence || reflexivity).
    rewrite Eb in *. inv_bind H. inv_bind H. cbn [bind] in *.
    unfold respond in *. change (s_response S') with (s_response S). rewrite Hr in *. inv_ok H.
    eexists. split; [reflexivity|]. cbn [pk_bias pk_1h pk_2h]. rewrite ab_Ic, ab_Is.
    split; [reflexivity|]. intros b z k. split; [|reflexivity].
    rewrite ab_cen, ab_sat, !ab_one_halo_plain, !one_halo_scal_r, ab_one_halo_l.
    replace (fun b z k m => / a * sat_profile S b z k m * a1 m)
      with (fun b z k m => / a * (sat_profile S b z k m * a1 m)) by (fx; ring).
    rewrite (ab_one_halo_l _ (fun b z k m => sat_profile S b z k m * a1 m)).
    change (t1 S') with (t1 S). field. exact Ha.
  Qed.
  Lemma ab_gm r : s_response S = false -> power_spectrum_gm S = Ok r ->
    exists r', power_spectrum_gm S' = Ok r' /\ forall b z k, pk_1h r' b z k = pk_1h r b z k.
  Proof.
    intros Hr H. unfold power_spectrum_gm in *.
    change (pk_lin S') with (pk_lin S). change (s_mode S') with (s_mode S).
    inv_bind H. unfold respond in *. change (s_response S') with (s_response S). rewrite Hr in *.
    change (beta_nl S') with (beta_nl S).
    assert (E1 : exists i, (if is_bnl (s_mode S)
        then bind (beta_nl S) (I_NL S' (gal_profile S') (matter_profile_2h S')) else Ok zero3) = Ok i).
    { destruct (is_bnl (s_mode S)); [|eexists; reflexivity]. destruct (beta_nl S); [|discriminate H].
      cbn [bind] in *. unfold I_NL in *. change (s_nm S') with (s_nm S). change (s_mass S') with (s_mass S).
      destruct (trap_weights (s_nm S) (s_mass S)); [|discriminate H]. eexists; reflexivity. }
    destruct E1 as [i ->]. cbn [bind]. inv_bind H. inv_ok H.
    eexists. split; [reflexivity|]. cbn [pk_1h]. intros b z k.
    rewrite ab_cen, ab_sat, ab_xm, !ab_one_halo_plain, !ab_one_halo_l.
    change (t1 S') with (t1 S). field. exact Ha.
  Qed.
  Lemma ab_mi r : s_mode S <> Bnl -> s_response S = false -> power_spectrum_mi S = Ok r ->
    exists r', power_spectrum_mi S' = Ok r' /\ forall b z k, pk_1h r' b z k = pk_1h r b z k.
  Proof.
    intros Hb Hr H.
    assert (E : forall b z k, - 1 * one_halo S' (profile_xm S') (sat_align S') b z k * t1i S' k
                = - 1 * one_halo S (profile_xm S) (sat_align S) b z k * t1i S k).
    { intros. rewrite ab_xm, ab_sat_align, ab_one_halo_plain, one_halo_scal_r. change (t1i S') with (t1i S). field. exact Ha. }
    unfold power_spectrum_mi in *. cbv zeta in *. unfold respond in *.
    change (pk_lin S') with (pk_lin S). change (s_mode S') with (s_mode S).
    change (peff_arr S') with (peff_arr S). change (s_response S') with (s_response S). rewrite Hr in *.
    destruct (s_mode S) eqn:Em; [congruence|..]; inv_bind H; cbn [bind]; inv_ok H;
      (eexists; split; [reflexivity|]; exact E).
  Qed.
  Lemma ab_ngal b z : n_gal S' b z = a * n_gal S b z.
  Proof. unfold n_gal. change (hctx S') with (ctx_scale a (hctx S)). rewrite nd_scale. reflexivity. Qed.
  Lemma ab_fc b z : f_c (hctx S') (s_hod S') b z = f_c (hctx S) (s_hod S) b z /\
    f_s (hctx S') (s_hod S') b z = f_s (hctx S) (s_hod S) b z.
  Proof.
    change (hctx S') with (ctx_scale a (hctx S)). change (s_hod S') with (s_hod S).
    rewrite f_c_scale, f_s_scale by exact Ha. split; reflexivity.
  Qed.
  Lemma ab_bias b z : galaxy_linear_bias (hctx S') (s_hod S') b z = galaxy_linear_bias (hctx S) (s_hod S) b z.
  Proof.
    change (hctx S') with (ctx_scale a (hctx S)). change (s_hod S') with (s_hod S).
    rewrite bias_scale by exact Ha. reflexivity.
  Qed.
  Lemma ab_mavg b z : mass_avg S' b z = mass_avg S b z.
  Proof. rewrite (mass_avg_scale a S S'); reflexivity || exact Ha. Qed.
End Abundance.

(** ** Units of length *)
Lemma searchsorted_scale n x c q : 0 < c -> searchsorted n (fun i => c * x i) (c * q) = searchsorted n x q.
Proof.
  intros Hc. induction n as [|n IH]; [reflexivity|]. cbn [searchsorted]. rewrite IH.
  destruct (Rlt_dec (c * x n) (c * q)) as [L|L], (Rlt_dec (x n) q) as [M|M]; try reflexivity; exfalso; nra.
Qed.
Lemma interp_scale_x n x y c q : 0 < c -> interp_lin n (fun i => c * x i) y (c * q) = interp_lin n x y q.
Proof.
  intros Hc. unfold interp_lin. rewrite searchsorted_scale by exact Hc.
  set (hi := clip_idx n (searchsorted n x q)).
  replace (c * x hi - c * x (hi - 1)%nat) with (c * (x hi - x (hi - 1)%nat)) by ring.
  replace (c * q - c * x (hi - 1)%nat) with (c * (q - x (hi - 1)%nat)) by ring.
  unfold Rdiv. rewrite Rinv_mult.
  replace ((y hi - y (hi - 1)%nat) * (/ c * / (x hi - x (hi - 1)%nat)) * (c * (q - x (hi - 1)%nat)))
    with ((/ c * c) * ((y hi - y (hi - 1)%nat) * / (x hi - x (hi - 1)%nat) * (q - x (hi - 1)%nat))) by ring.
  rewrite Rinv_l by lra. ring.
Qed.

Section Units.
  Variables (L : R) (S : spectra).
  Hypothesis HL : 0 < L.
  Notation S' := (in_units L S).
  Let HL3 : 0 < L ^ 3.
  Proof. apply pow_lt, HL. Qed.
  Let Ha : / L ^ 3 <> 0.
  Proof. apply Rinv_neq_0_compat. lra. Qed.
  Let Hii : / / L ^ 3 = L ^ 3.
  Proof. apply Rinv_inv. Qed.

  Lemma un_A : A_term S' = A_term S.
  Proof.
    fx. unfold A_term. change (s_nm S') with (s_nm S). change (s_mass S') with (s_mass S). f_equal.
    apply simpson_pw. intros m. cbn [in_units s_bias s_dndlnm s_rho].
    replace (s_bias S x m * (/ L ^ 3 * s_dndlnm S x m) * (1 / (/ L ^ 3 * s_rho S x)))
      with (s_bias S x m * ((/ L ^ 3 * s_dndlnm S x m) / (/ L ^ 3 * s_rho S x))) by (unfold Rdiv; ring).
    rewrite ratio_same by exact Ha. unfold Rdiv. ring.
  Qed.
  Lemma un_Im : Im_term S' = Im_term S.
  Proof.
    fx. unfold Im_term. rewrite un_A. change (s_nm S') with (s_nm S). change (s_mass S') with (s_mass S). f_equal.
    apply simpson_pw. intros m. change (u_dm S') with (u_dm S). cbn [in_units s_bias s_dndlnm s_rho].
    replace (s_bias S x m * (/ L ^ 3 * s_dndlnm S x m) * u_dm S x x0 m * (1 / (/ L ^ 3 * s_rho S x)))
      with (s_bias S x m * u_dm S x x0 m * ((/ L ^ 3 * s_dndlnm S x m) / (/ L ^ 3 * s_rho S x))) by (unfold Rdiv; ring).
    rewrite ratio_same by exact Ha. unfold Rdiv. ring.
  Qed.
  Lemma un_fstar : fstar S' = fstar S.
  Proof. apply (fstar_scale (/ L ^ 3)); reflexivity || exact Ha. Qed.
  Lemma un_fstar_mm : fstar_mm S' = fstar_mm S.
  Proof. apply (fstar_mm_scale (/ L ^ 3)); reflexivity || exact Ha. Qed.
  Lemma un_W0 x m : s_mass S m / (/ L ^ 3 * s_rho S x) = L ^ 3 * (s_mass S m / s_rho S x).
  Proof. unfold Rdiv. rewrite Rinv_mult, Rinv_inv. ring. Qed.
  Lemma un_mat : matter_profile S' = fun b z k m => L ^ 3 * matter_profile S b z k m.
  Proof.
    fx. unfold matter_profile. change (u_dm S') with (u_dm S). cbn [in_units s_mass s_rho]. rewrite un_W0. ring.
  Qed.
  Lemma un_mat_fb : matter_profile_fb S' = fun b z k m => L ^ 3 * matter_profile_fb S b z k m.
  Proof.
    fx. unfold matter_profile_fb. change (u_dm S') with (u_dm S).
    cbn [in_units s_mass s_rho s_logT s_zvec s_oc s_om s_ob]. cbv zeta. rewrite un_W0. ring.
  Qed.
  Lemma un_mat_obs f : matter_profile_obs S' f = fun b z k m => L ^ 3 * matter_profile_obs S f b z k m.
  Proof.
    fx. unfold matter_profile_obs. change (u_dm S') with (u_dm S).
    cbn [in_units s_mass s_rho s_mb s_oc s_om s_ob]. cbv zeta. rewrite un_W0. ring.
  Qed.
  Lemma un_mm : profile_mm S' = fun b z k m => L ^ 3 * profile_mm S b z k m.
  Proof.
    unfold profile_mm. rewrite un_fstar_mm. change (s_ingr S') with (s_ingr S).
    destruct (s_ingr S); [apply un_mat_fb|apply un_mat|apply un_mat_obs|apply un_mat].
  Qed.
  Lemma un_xm : profile_xm S' = fun b z k m => L ^ 3 * profile_xm S b z k m.
  Proof.
    unfold profile_xm. rewrite un_fstar. change (s_ingr S') with (s_ingr S). change (s_pointmass S') with (s_pointmass S).
    destruct (s_ingr S); [apply un_mat_fb|apply un_mat|apply un_mat_obs|].
    destruct (s_pointmass S); [apply un_mat_obs|apply un_mat].
  Qed.
  Lemma un_cen : cen_profile S' = fun b z k m => L ^ 3 * cen_profile S b z k m.
  Proof. rewrite <- Hii. apply cen_profile_scale; reflexivity || exact Ha. Qed.
  Lemma un_sat : sat_profile S' = fun b z k m => L ^ 3 * sat_profile S b z k m.
  Proof. rewrite <- Hii. apply sat_profile_scale; reflexivity || exact Ha. Qed.
  Lemma un_gal : gal_profile S' = fun b z k m => L ^ 3 * gal_profile S b z k m.
  Proof. rewrite <- Hii. apply gal_profile_scale; reflexivity || exact Ha. Qed.
  Lemma un_Ic : Ic_term S' = Ic_term S.
  Proof. apply (Ic_term_scale (/ L ^ 3)); reflexivity || exact Ha. Qed.
  Lemma un_Is : Is_term S' = Is_term S.
  Proof. apply (Is_term_scale (/ L ^ 3)); reflexivity || exact Ha. Qed.
  Lemma un_sF_c : sF_c S' = sF_c S.
  Proof. apply (sF_c_scale (/ L ^ 3)); reflexivity || exact Ha. Qed.
  Lemma un_ms be mp : mass_scaling S' be mp = mass_scaling S be mp.
  Proof. apply (mass_scaling_scale (/ L ^ 3)); reflexivity || exact Ha. Qed.
  Lemma un_sat_al : sat_align S' = fun b z k m => L ^ 3 * sat_align S b z k m.
  Proof. rewrite <- Hii. apply sat_align_scale; reflexivity || exact Ha. Qed.
  Lemma un_cen_al : cen_align S' = fun b z k m => L ^ 3 * cen_align S b z k m.
  Proof.
    fx. unfold cen_align. rewrite un_sF_c, un_ms. unfold C1. cbn [in_units s_gi s_growth s_mass s_beta_cen s_mpivot_cen].
    unfold Rdiv. ring.
  Qed.
  Lemma un_gal_al : gal_align S' = fun b z k m => L ^ 3 * gal_align S b z k m.
  Proof. fx. unfold gal_align. rewrite un_cen_al, un_sat_al. ring. Qed.
  Lemma un_one_halo u v b z k :
    one_halo S' (fun b z k m => L ^ 3 * u b z k m) (fun b z k m => L ^ 3 * v b z k m) b z k = L ^ 3 * one_halo S u v b z k.
  Proof.
    rewrite (one_halo_scale (/ L ^ 3) S S'); try reflexivity; try exact Ha. f_equal. field. lra.
  Qed.
  Lemma un_I_align p b z k : I_align S' (fun b z k m => L ^ 3 * p b z k m) b z k = I_align S p b z k.
  Proof.
    unfold I_align. rewrite un_A, (Ig_term_scale (/ L ^ 3) S S'); try reflexivity; try exact Ha.
    cbn [in_units s_rho s_mass]. rewrite Rinv_r by lra. rewrite Rmult_1_l. f_equal. unfold Rdiv. f_equal.
    field. lra.
  Qed.
  Lemma un_Ic_al b z k : Ic_align S' b z k = Ic_align S b z k.
  Proof. unfold Ic_align. rewrite un_cen_al. apply un_I_align. Qed.
  Lemma un_Is_al b z k : Is_align S' b z k = Is_align S b z k.
  Proof. unfold Is_align. rewrite un_sat_al. apply un_I_align. Qed.
  Lemma un_amp z : amp_2h S' z = amp_2h S z.
  Proof.
    unfold amp_2h, C1. cbn [in_units s_gi s_growth s_rho]. f_equal. unfold Rdiv. f_equal. field. lra.
  Qed.
  Lemma un_amp2 z : amp_2h_II S' z = amp_2h_II S z.
  Proof.
    unfold amp_2h_II, C1. cbn [in_units s_gi s_growth s_rho]. f_equal. unfold Rdiv. f_equal. field. lra.
  Qed.
  Lemma un_ratio k t : / L * k / (/ L * t) = k / t.
  Proof. apply ratio_same. apply Rinv_neq_0_compat. lra. Qed.
  Lemma un_t1 : t1 S' = t1 S.
  Proof.
    fx. unfold t1. cbn [in_units s_k1 s_kvec]. destruct (s_k1 S); [|reflexivity].
    cbn [option_map trunc1]. rewrite un_ratio. reflexivity.
  Qed.
  Lemma un_t1i : t1i S' = t1i S.
  Proof.
    fx. unfold t1i. cbn [in_units s_k1_ia s_kvec]. destruct (s_k1_ia S); [|reflexivity].
    cbn [option_map trunc1_ia]. rewrite un_ratio. reflexivity.
  Qed.
  Lemma un_t2i : t2i S' = t2i S.
  Proof.
    fx. unfold t2i. cbn [in_units s_k2_ia s_kvec]. destruct (s_k2_ia S); [|reflexivity].
    cbn [option_map trunc2_ia]. rewrite un_ratio. reflexivity.
  Qed.

  Lemma un_INL U V B i : I_NL S U V B = Ok i ->
    I_NL S' (fun b z k m => L ^ 3 * U b z k m) (fun b z k m => L ^ 3 * V b z k m) B = Ok i.
  Proof.
    unfold I_NL. change (s_nm S') with (s_nm S). change (s_mass S') with (s_mass S).
    intros H. inv_bind H. inv_ok H. cbn [bind]. f_equal. fx. rename a into w, x into b, x0 into z, x1 into k.
    rewrite un_A. unfold I_NL_w. change (s_nm S') with (s_nm S). change (s_mass S') with (s_mass S). cbv zeta.
    assert (Ew : forall z m, w_bnl S' z m = / L ^ 3 * w_bnl S z m).
    { intros. unfold w_bnl. cbn [in_units s_bias s_dndlnm s_mass]. ring. }
    assert (E12 : trap_integrate (s_nm S) w (fun m => I12_part S' B z k m * (L ^ 3 * V b z k m))
                = trap_integrate (s_nm S) w (fun m => I12_part S B z k m * V b z k m)).
    { apply trap_pw. intros. unfold I12_part. rewrite Ew. field. lra. }
    assert (E21 : trap_integrate (s_nm S) w (fun m => I21_part S' B z k m * (L ^ 3 * U b z k m))
                = trap_integrate (s_nm S) w (fun m => I21_part S B z k m * U b z k m)).
    { apply trap_pw. intros. unfold I21_part. rewrite Ew. field. lra. }
    assert (E22 : trap_integrate (s_nm S) w (fun m1 => trap_integrate (s_nm S) w
                    (fun m2 => I22_part S' B z k m1 m2 * (L ^ 3 * V b z k m2)) * (L ^ 3 * U b z k m1))
                = trap_integrate (s_nm S) w (fun m1 => trap_integrate (s_nm S) w
                    (fun m2 => I22_part S B z k m1 m2 * V b z k m2) * U b z k m1)).
    { apply trap_pw. intros m1.
      rewrite (trap_pw _ _ _ (fun m2 => / L ^ 3 * (I22_part S B z k m1 m2 * V b z k m2))).
      - rewrite trap_int_scal. field. lra.
      - intros m2. unfold I22_part. rewrite !Ew. field. lra. }
    rewrite E12, E21, E22. cbn [in_units s_rho]. set (y := 1 / s_mass S 0%nat). field. lra.
  Qed.

  Hypothesis Hfree : scale_free S.
  Lemma un_pl pl : pk_lin S = Ok pl -> pk_lin S' = Ok (fun z k => L ^ 3 * pl z k).
  Proof.
    destruct Hfree as (Hm & Hd & _). unfold pk_lin.
    change (s_mode S') with (s_mode S). change (s_dewiggle S') with (s_dewiggle S).
    assert (E : is_hmcode (s_mode S) = false) by (destruct (s_mode S) eqn:Em0; congruence || reflexivity).
    rewrite E, Hd. cbn [orb bind]. unfold raw_plin. cbn [in_units s_plin s_nz s_nk].
    destruct (s_plin S) as [x|]; cbn [option_map times2 a_rows a_cols a_val].
    - destruct (_ && _); [|discriminate]. intros H. inv_ok H. reflexivity.
    - destruct (_ && _); [|discriminate]. intros H. inv_ok H. f_equal. fx.
      cbn [in_units s_nkh s_kh s_power s_kvec]. unfold interp1d.
      rewrite interp_scale_x by (apply Rinv_0_lt_compat; exact HL). apply interp_scal.
  Qed.
  Lemma un_pn o : pk_nl S = Ok o -> pk_nl S' = Ok (option_map (fun p z k => L ^ 3 * p z k) o).
  Proof.
    unfold pk_nl. change (s_mode S') with (s_mode S). change (s_response S') with (s_response S).
    cbn [in_units s_pnl s_nz s_nk].
    destruct (is_fortuna (s_mode S) || s_response S).
    - destruct (s_pnl S) as [x|]; cbn [option_map times2 a_rows a_cols a_val].
      + destruct (_ && _); [|discriminate]. intros H. inv_ok H. reflexivity.
      + destruct (_ && _); [|discriminate]. intros H. inv_ok H. cbn [option_map]. do 2 f_equal. fx.
        cbn [in_units s_nkh s_kh s_nlpower s_kvec]. unfold interp1d.
        rewrite interp_scale_x by (apply Rinv_0_lt_compat; exact HL). apply interp_scal.
    - intros H. inv_ok H. destruct (s_pnl S); reflexivity.
  Qed.
  Lemma un_peff p : peff_arr S = Ok p -> peff_arr S' = Ok (fun z k => L ^ 3 * p z k).
  Proof.
    unfold peff_arr, peff. change (s_mode S') with (s_mode S). destruct (is_fortuna (s_mode S)); [|discriminate].
    intros H. destruct (pk_lin S) as [pl|] eqn:El; [|discriminate H]. cbn [bind] in H.
    destruct (pk_nl S) as [o|] eqn:En; [|discriminate H]. cbn [bind] in H. destruct o as [pn|]; [|discriminate H].
    inv_ok H. rewrite (un_pl _ El). cbn [bind]. rewrite (un_pn _ En). cbn [bind option_map]. f_equal. fx.
    change (s_t_eff S') with (s_t_eff S). ring.
  Qed.
  Lemma un_tr k : (if is_bnl (s_mode S) then 1 else t2 S' k) = if is_bnl (s_mode S) then 1 else t2 S k.
  Proof.
    destruct Hfree as (_ & _ & [Hb|Hk]); [rewrite Hb; reflexivity|].
    unfold t2. cbn [in_units s_k2]. rewrite Hk. reflexivity.
  Qed.

  Ltac units := change (s_mode S') with (s_mode S) in *; change (beta_nl S') with (beta_nl S) in *;
    change (matter_profile_2h S') with (matter_profile S') in *; change (matter_profile_2h S) with (matter_profile S) in *;
    change (s_ingr S') with (s_ingr S) in *.
  Ltac blocks := rewrite ?un_t1, ?un_t1i, ?un_t2i, ?un_Im, ?un_Ic, ?un_Is, ?un_xm, ?un_mm, ?un_cen, ?un_sat, ?un_cen_al,
    ?un_sat_al, ?un_sF_c, ?un_Ic_al, ?un_Is_al, ?un_amp, ?un_amp2, ?un_one_halo.

  Lemma un_mm_raw r : power_spectrum_mm_raw S = Ok r ->
    exists r', power_spectrum_mm_raw S' = Ok r' /\ multiple_of (L ^ 3) r r'.
  Proof.
    destruct Hfree as (Hm & Hd & Hk2).
    unfold power_spectrum_mm_raw. units. intros H. inv_bind H. rewrite (un_pl _ E). cbn [bind].
    assert (T2 : s_mode S <> Bnl -> t2 S' = t2 S).
    { intros Hb. fx. unfold t2. cbn [in_units s_k2]. destruct Hk2 as [Hk2|Hk2]; [congruence|]. rewrite Hk2. reflexivity. }
    destruct (s_mode S) eqn:Em; [|congruence|..].
    - inv_bind H. cbn [bind]. rewrite un_mat. destruct (I_NL S (matter_profile S) (matter_profile S) a0) eqn:E1; [|discriminate H].
      cbn [bind] in H. rewrite (un_INL _ _ _ _ E1). cbn [bind]. inv_ok H. eexists. split; [reflexivity|]. split; [reflexivity|].
      intros b z k. cbn [pk_1h pk_2h pk_tot]. blocks. repeat split; ring.
    - inv_ok H. eexists. split; [reflexivity|]. split; [reflexivity|].
      intros b z k. cbn [pk_1h pk_2h pk_tot]. rewrite T2 by discriminate. blocks. repeat split; ring.
    - inv_ok H. eexists. split; [reflexivity|]. split; [reflexivity|].
      intros b z k. cbn [pk_1h pk_2h pk_tot]. rewrite T2 by discriminate. blocks. repeat split; ring.
  Qed.
  Lemma un_mm_full r : power_spectrum_mm S = Ok r ->
    exists r', power_spectrum_mm S' = Ok r' /\ multiple_of (L ^ 3) r r'.
  Proof.
    unfold power_spectrum_mm. change (s_response S') with (s_response S). destruct (s_response S); [|apply un_mm_raw].
    intros H. destruct (pk_nl S) as [o|] eqn:E; [|discriminate H]. cbn [bind] in H. destruct o as [pn|]; [|discriminate H].
    inv_ok H. rewrite (un_pn _ E). cbn [bind option_map]. eexists. split; [reflexivity|]. split; [reflexivity|].
    intros. cbn [pk_1h pk_2h pk_tot]. repeat split; ring.
  Qed.
  Lemma un_respond r r' r1 : multiple_of (L ^ 3) r r' -> respond S r = Ok r1 ->
    exists r1', respond S' r' = Ok r1' /\ multiple_of (L ^ 3) r1 r1'.
  Proof.
    intros [Hb Hc] H. unfold respond in *. change (s_response S') with (s_response S).
    destruct (s_response S).
    - destruct (pk_nl S) as [o|] eqn:E; [|discriminate H]. cbn [bind] in H. inv_bind H.
      destruct o as [pn|]; [|discriminate H]. inv_ok H. rewrite (un_pn _ E). cbn [bind option_map].
      destruct (un_mm_raw _ E0) as (mm' & -> & _ & Hmm). cbn [bind].
      eexists. split; [reflexivity|]. split; [exact Hb|]. intros b z k. cbn [pk_1h pk_2h pk_tot].
      destruct (Hc b z k) as (-> & -> & ->). destruct (Hmm b z k) as (_ & _ & ->).
      rewrite ratio_same by lra. repeat split; ring.
    - inv_ok H. exists r'. split; [reflexivity|]. split; assumption.
  Qed.
  Lemma un_five x r : power_spectrum x S = Ok r ->
    exists r', power_spectrum x S' = Ok r' /\ multiple_of (L ^ 3) r r'.
  Proof.
    destruct Hfree as (Hm & Hd & Hk2).
    destruct x; cbn [power_spectrum]; intros H.
    - unfold power_spectrum_gg in *. units. inv_bind H. rewrite (un_pl _ E). cbn [bind].
      change (s_poisson S') with (s_poisson S). change (s_mass S') with (s_mass S). inv_bind H. cbn [bind].
      assert (T2 : forall k, (if is_bnl (s_mode S) then 1 else t2 S' k) = if is_bnl (s_mode S) then 1 else t2 S k) by apply un_tr.
      rewrite un_gal.
      assert (G : exists i, (if is_bnl (s_mode S) then bind (beta_nl S) (I_NL S (gal_profile S) (gal_profile S)) else Ok zero3) = Ok i /\
        (if is_bnl (s_mode S) then bind (beta_nl S) (I_NL S' (fun b z k m => L ^ 3 * gal_profile S b z k m)
            (fun b z k m => L ^ 3 * gal_profile S b z k m)) else Ok zero3) = Ok i).
      { destruct (is_bnl (s_mode S)); [|eexists; split; reflexivity]. destruct (beta_nl S) as [B|e]; [|discriminate H]. cbn [bind] in *. inv_bind H.
        eexists. split; [reflexivity|]. apply un_INL. assumption. }
      destruct G as (i & Gi & Gi'). rewrite Gi in H. rewrite Gi'. cbn [bind] in *.
      eapply un_respond; [|exact H]. split; [cbn [pk_bias]; rewrite un_Ic, un_Is; reflexivity|].
      intros b z k. cbn [pk_1h pk_2h pk_tot]. rewrite !T2. blocks.
      replace (fun b z k m => L ^ 3 * sat_profile S b z k m * a0 m)
        with (fun b z k m => L ^ 3 * (sat_profile S b z k m * a0 m)) by (fx; ring).
      rewrite (un_one_halo (fun b z k m => sat_profile S b z k m * a0 m)).
      destruct (is_bnl (s_mode S)); repeat split; ring.
    - unfold power_spectrum_gm in *. units. inv_bind H. rewrite (un_pl _ E). cbn [bind].
      assert (T2 : forall k, (if is_bnl (s_mode S) then 1 else t2 S' k) = if is_bnl (s_mode S) then 1 else t2 S k) by apply un_tr.
      rewrite un_gal, un_mat.
      assert (G : exists i, (if is_bnl (s_mode S) then bind (beta_nl S) (I_NL S (gal_profile S) (matter_profile S)) else Ok zero3) = Ok i /\
        (if is_bnl (s_mode S) then bind (beta_nl S) (I_NL S' (fun b z k m => L ^ 3 * gal_profile S b z k m)
            (fun b z k m => L ^ 3 * matter_profile S b z k m)) else Ok zero3) = Ok i).
      { destruct (is_bnl (s_mode S)); [|eexists; split; reflexivity]. destruct (beta_nl S) as [B|e]; [|discriminate H]. cbn [bind] in *. inv_bind H.
        eexists. split; [reflexivity|]. apply un_INL. assumption. }
      destruct G as (i & Gi & Gi'). rewrite Gi in H. rewrite Gi'. cbn [bind] in *.
      eapply un_respond; [|exact H]. split; [cbn [pk_bias]; rewrite un_Ic, un_Is, un_Im; reflexivity|].
      intros b z k. cbn [pk_1h pk_2h pk_tot]. rewrite !T2. blocks.
      destruct (is_bnl (s_mode S)); repeat split; ring.
    - unfold power_spectrum_mi in *. units. cbv zeta in *. rewrite un_gal_al, un_mat.
      destruct (s_mode S) eqn:Em; [|congruence|..]; inv_bind H.
      + rewrite (un_pl _ E). cbn [bind]. inv_bind H. cbn [bind].
        destruct (I_NL S (gal_align S) (matter_profile S) a0) eqn:E1; [|discriminate H]. cbn [bind] in H.
        rewrite (un_INL _ _ _ _ E1). cbn [bind].
        eapply un_respond; [|exact H]. split; [reflexivity|]. intros b z k. cbn [pk_1h pk_2h pk_tot].
        blocks. repeat split; ring.
      + rewrite (un_peff _ E). cbn [bind]. eapply un_respond; [|exact H]. split; [reflexivity|].
        intros b z k. cbn [pk_1h pk_2h pk_tot]. blocks. repeat split; ring.
      + rewrite (un_pl _ E). cbn [bind]. eapply un_respond; [|exact H]. split; [reflexivity|].
        intros b z k. cbn [pk_1h pk_2h pk_tot]. blocks. repeat split; ring.
    - unfold power_spectrum_ii in *. units. cbv zeta in *. rewrite un_cen_al, un_sat_al.
      destruct (s_mode S) eqn:Em; [|congruence|..]; inv_bind H.
      + rewrite (un_pl _ E). cbn [bind]. inv_bind H. cbn [bind]. inv_bind H. rewrite (un_INL _ _ _ _ E1). cbn [bind].
        inv_bind H. rewrite (un_INL _ _ _ _ E2). cbn [bind]. inv_bind H. rewrite (un_INL _ _ _ _ E3). cbn [bind].
        eapply un_respond; [|exact H]. split; [reflexivity|]. intros b z k. cbn [pk_1h pk_2h pk_tot].
        blocks. repeat split; ring.
      + rewrite (un_peff _ E). cbn [bind]. eapply un_respond; [|exact H]. split; [reflexivity|].
        intros b z k. cbn [pk_1h pk_2h pk_tot]. blocks. repeat split; ring.
      + rewrite (un_pl _ E). cbn [bind]. eapply un_respond; [|exact H]. split; [reflexivity|].
        intros b z k. cbn [pk_1h pk_2h pk_tot]. blocks. repeat split; ring.
    - unfold power_spectrum_gi in *. units. cbv zeta in *. rewrite un_cen_al, un_sat_al, un_cen.
      destruct (s_mode S) eqn:Em; [|congruence|..]; inv_bind H.
      + rewrite (un_pl _ E). cbn [bind]. inv_bind H. cbn [bind]. inv_bind H. rewrite (un_INL _ _ _ _ E1). cbn [bind].
        inv_bind H. rewrite (un_INL _ _ _ _ E2). cbn [bind].
        eapply un_respond; [|exact H]. split; [reflexivity|]. intros b z k. cbn [pk_1h pk_2h pk_tot].
        blocks. repeat split; ring.
      + rewrite (un_peff _ E). cbn [bind]. eapply un_respond; [|exact H]. split; [reflexivity|].
        intros b z k. cbn [pk_1h pk_2h pk_tot]. blocks. repeat split; ring.
      + rewrite (un_pl _ E). cbn [bind]. eapply un_respond; [|exact H]. split; [reflexivity|].
        intros b z k. cbn [pk_1h pk_2h pk_tot]. blocks. repeat split; ring.
  Qed.
End Units.
