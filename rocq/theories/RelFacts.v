(** Proofs of the relational properties of the spectra: units and abundance. *)
From Coq Require Import FunctionalExtensionality.
From Verif Require Import Base Spec Quad Interp HodModel HodSpec Dewiggle PkModel PkSpec BaseFacts QuadFacts
  InterpFacts NumFacts HodFacts HodFacts2 PkFacts PkFacts2 RelSpec.
Open Scope R_scope.

Ltac fx := repeat (apply functional_extensionality; intro).

Lemma ratio_same a x y : a <> 0 -> (a * x) / (a * y) = x / y.
Proof.
  intros Ha. unfold Rdiv. rewrite Rinv_mult.
  replace (a * x * (/ a * / y)) with ((a * / a) * (x * / y)) by ring.
  rewrite Rinv_r by exact Ha. ring.
Qed.

(** ** The HOD when every halo is [a] times as abundant *)
Definition ctx_scale (a : R) (c : hod_ctx) : hod_ctx :=
  {| c_set := c_set c; c_nm := c_nm c; c_mass := c_mass c; c_nzv := c_nzv c; c_zvec := c_zvec c;
     c_dndlnm := fun i m => a * c_dndlnm c i m; c_bias := c_bias c; c_h := c_h c |}.

Section Scale.
  Variables (a : R) (c : hod_ctx) (md : hod_model).
  Hypothesis Ha : a <> 0.
  Notation c' := (ctx_scale a c).

  Lemma dndlnm_int_scale : dndlnm_int c' = fun b j m => a * dndlnm_int c b j m.
  Proof. fx. unfold dndlnm_int, interp1d. cbn [ctx_scale c_nzv c_zvec c_dndlnm c_set]. apply interp_scal. Qed.
  Lemma compute_cen_scale : compute_hod_cen c' md = compute_hod_cen c md.
  Proof. fx. destruct md; reflexivity. Qed.
  Lemma compute_sat_scale : compute_hod_sat c' md = compute_hod_sat c md.
  Proof. fx. destruct md; reflexivity. Qed.
  Lemma compute_hod_scale : compute_hod c' md = compute_hod c md.
  Proof. unfold compute_hod. rewrite compute_cen_scale, compute_sat_scale. reflexivity. Qed.
  Lemma mass_integral_scale h : mass_integral c' h = fun b j => a * mass_integral c h b j.
  Proof.
    fx. unfold mass_integral. rewrite dndlnm_int_scale. cbn [ctx_scale c_nm c_mass].
    rewrite <- simpson_scal. apply simpson_pw. intros. unfold Rdiv. ring.
  Qed.
  Lemma mean_mass_integral_scale h : mean_mass_integral c' h = fun b j => a * mean_mass_integral c h b j.
  Proof.
    fx. unfold mean_mass_integral. rewrite dndlnm_int_scale. cbn [ctx_scale c_nm c_mass].
    rewrite <- simpson_scal. apply simpson_pw. intros. ring.
  Qed.
  Lemma z_interp_c' f : z_interpolate c' f = z_interpolate c f.
  Proof. reflexivity. Qed.
  Lemma z_interp_scal d b i :
    z_interpolate c Extrapolate (fun b j => a * d b j) b i = a * z_interpolate c Extrapolate d b i.
  Proof. unfold z_interpolate, interp1d. apply interp_scal. Qed.
  Lemma z_interp_scal0 d b i :
    z_interpolate c (FillValue 0) (fun b j => a * d b j) b i = a * z_interpolate c (FillValue 0) d b i.
  Proof.
    unfold z_interpolate, interp1d.
    destruct (Rlt_dec _ _); [ring|]. destruct (Rlt_dec _ _); [ring|]. apply interp_scal.
  Qed.
  Lemma nd_cen_scale : number_density_cen c' md = fun b i => a * number_density_cen c md b i.
  Proof. fx. unfold number_density_cen, ncen. rewrite compute_cen_scale, mass_integral_scale. apply z_interp_scal. Qed.
  Lemma nd_sat_scale : number_density_sat c' md = fun b i => a * number_density_sat c md b i.
  Proof. fx. unfold number_density_sat, nsat. rewrite compute_sat_scale, mass_integral_scale. apply z_interp_scal. Qed.
  Lemma nd_scale : number_density c' md = fun b i => a * number_density c md b i.
  Proof. fx. unfold number_density, ntot. rewrite compute_hod_scale, mass_integral_scale. apply z_interp_scal. Qed.
  Lemma avg_cen_scale : avg_halo_mass_cen c' md = fun b i => a * avg_halo_mass_cen c md b i.
  Proof. fx. unfold avg_halo_mass_cen, mass_avg_cen. rewrite compute_cen_scale, mean_mass_integral_scale. apply z_interp_scal0. Qed.
  Lemma f_c_scale : f_c c' md = f_c c md.
  Proof.
    fx. unfold f_c, ncen, ntot. rewrite compute_cen_scale, compute_hod_scale, !mass_integral_scale, z_interp_c'.
    f_equal. fx. apply ratio_same, Ha.
  Qed.
  Lemma f_s_scale : f_s c' md = f_s c md.
  Proof.
    fx. unfold f_s, nsat, ntot. rewrite compute_sat_scale, compute_hod_scale, !mass_integral_scale, z_interp_c'.
    f_equal. fx. apply ratio_same, Ha.
  Qed.
  Lemma bias_scale : galaxy_linear_bias c' md = galaxy_linear_bias c md.
  Proof.
    fx. unfold galaxy_linear_bias, bg_tot, bias_integral, ntot.
    rewrite compute_hod_scale, mass_integral_scale, z_interp_c'. f_equal. fx.
    rewrite dndlnm_int_scale. cbn [ctx_scale c_nm c_mass].
    change (halo_bias_int c') with (halo_bias_int c).
    rewrite (simpson_pw _ _ (fun m => a * (compute_hod c md x1 x2 m * halo_bias_int c x1 x2 m * dndlnm_int c x1 x2 m / c_mass c m)))
      by (intros; unfold Rdiv; ring).
    rewrite simpson_scal. apply ratio_same, Ha.
  Qed.
  Lemma hod_cen_scale : hod_cen c' md = hod_cen c md.
  Proof. fx. unfold hod_cen. rewrite compute_cen_scale. reflexivity. Qed.
  Lemma hod_sat_scale : hod_sat c' md = hod_sat c md.
  Proof. fx. unfold hod_sat. rewrite compute_sat_scale. reflexivity. Qed.
  Lemma stellar_scale : stellar_fraction c' md = stellar_fraction c md.
  Proof. fx. unfold stellar_fraction, stellar_fraction_of. destruct md; reflexivity. Qed.
End Scale.

Lemma inv_scale a x : / (a * x) = / a * / x.
Proof. apply Rinv_mult. Qed.

(** ** Galaxy blocks of two requests whose HOD contexts differ by the abundance *)
Section Blocks.
  Variables (a : R) (S S' : spectra).
  Hypothesis Ha : a <> 0.
  Hypothesis Hctx : forall set, ctx_of S' set = ctx_scale a (ctx_of S set).
  Hypothesis Hset : s_hod_set S' = s_hod_set S.
  Hypothesis Hhod : s_hod S' = s_hod S.
  Hypothesis Hsetmm : s_hod_set_mm S' = s_hod_set_mm S.
  Hypothesis Hingr : s_ingr S' = s_ingr S.

  Lemma hctx_scale : hctx S' = ctx_scale a (hctx S).
  Proof. unfold hctx. rewrite Hctx, Hset. reflexivity. Qed.
  Lemma sF_c_scale : sF_c S' = sF_c S.
  Proof. unfold sF_c. rewrite hctx_scale, Hhod. apply f_c_scale, Ha. Qed.
  Lemma sF_s_scale : sF_s S' = sF_s S.
  Proof. unfold sF_s. rewrite hctx_scale, Hhod. apply f_s_scale, Ha. Qed.
  Lemma sN_c_scale : sN_c S' = sN_c S.
  Proof. unfold sN_c. rewrite hctx_scale, Hhod. apply hod_cen_scale. Qed.
  Lemma sN_s_scale : sN_s S' = sN_s S.
  Proof. unfold sN_s. rewrite hctx_scale, Hhod. apply hod_sat_scale. Qed.
  Lemma sn_c_scale : sn_c S' = fun b z => a * sn_c S b z.
  Proof. unfold sn_c. rewrite hctx_scale, Hhod. apply nd_cen_scale. Qed.
  Lemma sn_s_scale : sn_s S' = fun b z => a * sn_s S b z.
  Proof. unfold sn_s. rewrite hctx_scale, Hhod. apply nd_sat_scale. Qed.
  Lemma fstar_scale : fstar S' = fstar S.
  Proof. unfold fstar. rewrite hctx_scale, Hhod. apply stellar_scale. Qed.
  Lemma fstar_mm_scale : fstar_mm S' = fstar_mm S.
  Proof.
    fx. unfold fstar_mm. rewrite Hingr, Hhod, Hsetmm. destruct (s_ingr S); try reflexivity.
    destruct (s_hod S); try reflexivity. cbv zeta. rewrite Hctx. apply f_equal with (f := fun g => g _ _ _), stellar_scale.
  Qed.
  Lemma mass_avg_scale : mass_avg S' = mass_avg S.
  Proof. fx. unfold mass_avg. rewrite hctx_scale, Hhod, avg_cen_scale, nd_scale. apply ratio_same, Ha. Qed.
  Lemma cen_profile_scale : cen_profile S' = fun b z k m => / a * cen_profile S b z k m.
  Proof. fx. unfold cen_profile. rewrite sF_c_scale, sN_c_scale, sn_c_scale. unfold Rdiv. rewrite inv_scale. ring. Qed.
  Hypothesis Hus : u_sat S' = u_sat S.
  Lemma sat_profile_scale : sat_profile S' = fun b z k m => / a * sat_profile S b z k m.
  Proof. fx. unfold sat_profile. rewrite sF_s_scale, sN_s_scale, sn_s_scale, Hus. unfold Rdiv. rewrite inv_scale. ring. Qed.
  Lemma gal_profile_scale : gal_profile S' = fun b z k m => / a * gal_profile S b z k m.
  Proof. fx. unfold gal_profile. rewrite cen_profile_scale, sat_profile_scale. ring. Qed.
  Hypothesis Hnm : s_nm S' = s_nm S.
  Hypothesis Hmass : s_mass S' = s_mass S.
  Hypothesis Hbias : s_bias S' = s_bias S.
  Hypothesis Hdn : s_dndlnm S' = fun z m => a * s_dndlnm S z m.
  Lemma one_halo_scale c d u v b z k :
    one_halo S' (fun b z k m => c * u b z k m) (fun b z k m => d * v b z k m) b z k = (c * d * a) * one_halo S u v b z k.
  Proof.
    unfold one_halo. rewrite Hnm, Hmass, Hdn, <- simpson_scal. apply simpson_pw. intros. unfold Rdiv. ring.
  Qed.
  Lemma Ig_term_scale c p b z k : Ig_term S' (fun b z k m => c * p b z k m) b z k = (c * a) * Ig_term S p b z k.
  Proof.
    unfold Ig_term. rewrite Hnm, Hmass, Hdn, Hbias, <- simpson_scal. apply simpson_pw. intros. unfold Rdiv. ring.
  Qed.
  Lemma Ic_term_scale : Ic_term S' = Ic_term S.
  Proof. fx. unfold Ic_term. rewrite cen_profile_scale, Ig_term_scale, Rinv_l by exact Ha. ring. Qed.
  Lemma Is_term_scale : Is_term S' = Is_term S.
  Proof. fx. unfold Is_term. rewrite sat_profile_scale, Ig_term_scale, Rinv_l by exact Ha. ring. Qed.
  Hypothesis Hwkm : s_wkm S' = s_wkm S.
  Hypothesis Hbs : s_beta_sat S' = s_beta_sat S.
  Hypothesis Hms : s_mpivot_sat S' = s_mpivot_sat S.
  Lemma mass_scaling_scale be mp : mass_scaling S' be mp = mass_scaling S be mp.
  Proof. fx. unfold mass_scaling. rewrite mass_avg_scale. reflexivity. Qed.
  Lemma sat_align_scale : sat_align S' = fun b z k m => / a * sat_align S b z k m.
  Proof.
    fx. unfold sat_align. rewrite sF_s_scale, sN_s_scale, sn_s_scale, mass_scaling_scale, Hwkm, Hbs, Hms.
    unfold Rdiv. rewrite inv_scale. ring.
  Qed.
End Blocks.
