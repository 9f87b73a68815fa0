(** Proofs of the relational properties: other galaxies, other grids, single bins. *)
From Coq Require Import FunctionalExtensionality.
From Verif Require Import Base Spec Quad Interp HodModel HodSpec Dewiggle PkModel PkSpec BaseFacts QuadFacts
  InterpFacts NumFacts HodFacts HodFacts2 PkFacts PkFacts2 RelSpec RelFacts RelFacts3.
Open Scope R_scope.

Lemma div_eq (x x' y y' : R) : x' = x -> y' = y -> x' / y' = x / y.
Proof. intros -> ->. reflexivity. Qed.

(** ** Other galaxies *)
Lemma no_stars S b z m : stars_in_matter (s_ingr S) (s_hod S) = false -> fstar_mm S b z m = 0.
Proof. unfold stars_in_matter, fstar_mm. destruct (s_ingr S); try reflexivity. destruct (s_hod S); [discriminate|reflexivity..]. Qed.

Lemma mm_galaxies g S : stars_in_matter (s_ingr S) (s_hod S) = false -> stars_in_matter (s_ingr S) (g_hod g) = false ->
  power_spectrum_mm (with_galaxies g S) = power_spectrum_mm S.
Proof.
  intros H H'.
  assert (E : fstar_mm (with_galaxies g S) = fstar_mm S).
  { fx. rewrite (no_stars S) by exact H. apply (no_stars (with_galaxies g S)). exact H'. }
  assert (P : profile_mm (with_galaxies g S) = profile_mm S).
  { unfold profile_mm. rewrite E. reflexivity. }
  unfold power_spectrum_mm, power_spectrum_mm_raw. rewrite P. reflexivity.
Qed.

Lemma gg_alignment g S : power_spectrum_gg (with_alignment g S) = power_spectrum_gg S /\
  power_spectrum_gm (with_alignment g S) = power_spectrum_gm S /\
  power_spectrum_mm (with_alignment g S) = power_spectrum_mm S.
Proof. repeat split; reflexivity. Qed.

(** ** Other wavenumbers *)
Section Wavenumbers.
  Variables (n : nat) (s : nat -> nat) (S : spectra).
  Notation S' := (on_wavenumbers n s S).
  Hypothesis Hd : s_mode S <> Hmcode /\ s_dewiggle S = false.
  Let Hb : is_hmcode (s_mode S) || s_dewiggle S = false.
  Proof. destruct Hd as [Hm ->]. destruct (s_mode S) eqn:E; congruence || reflexivity. Qed.

  Lemma wn_lin pl : pk_lin S = Ok pl -> pk_lin S' = Ok (fun z k => pl z (s k)).
  Proof.
    unfold pk_lin. change (is_hmcode (s_mode S') || s_dewiggle S') with (is_hmcode (s_mode S) || s_dewiggle S).
    rewrite Hb. cbn [bind]. unfold raw_plin. cbn [on_wavenumbers s_plin s_nz s_nk].
    destruct (s_plin S) as [x|]; cbn [option_map cols2 a_rows a_cols a_val]; intros H.
    - destruct (Nat.eqb (a_rows x) (s_nz S)); [|discriminate H]. cbn [andb] in *. rewrite Nat.eqb_refl.
      destruct (Nat.eqb _ _); [|discriminate H]. inv_ok H. reflexivity.
    - rewrite !Nat.eqb_refl in *. cbn [andb] in *. inv_ok H. reflexivity.
  Qed.
  Lemma wn_nl pn : pk_nl S = Ok (Some pn) -> pk_nl S' = Ok (Some (fun z k => pn z (s k))).
  Proof.
    unfold pk_nl. change (is_fortuna (s_mode S') || s_response S') with (is_fortuna (s_mode S) || s_response S).
    cbn [on_wavenumbers s_pnl s_nz s_nk].
    destruct (is_fortuna (s_mode S) || s_response S); destruct (s_pnl S) as [x|]; cbn [option_map cols2 a_rows a_cols a_val]; intros H.
    - destruct (Nat.eqb (a_rows x) (s_nz S)); [|discriminate H]. cbn [andb] in *. rewrite Nat.eqb_refl.
      destruct (Nat.eqb _ _); [|discriminate H]. inv_ok H. reflexivity.
    - rewrite !Nat.eqb_refl in *. cbn [andb] in *. inv_ok H. reflexivity.
    - inv_ok H. reflexivity.
    - discriminate H.
  Qed.
  Lemma wn_beta B : beta_nl S = Ok B -> beta_nl S' = Ok (fun z k m1 m2 => B z (s k) m1 m2).
  Proof.
    unfold beta_nl. cbn [on_wavenumbers s_beta_nl s_emulator]. destruct (s_beta_nl S); cbn [option_map].
    - intros H. inv_ok H. reflexivity.
    - destruct (s_emulator S); [|discriminate]. intros H. inv_ok H. reflexivity.
  Qed.
  Lemma wn_options : same_options S' S.
  Proof.
    constructor; try reflexivity.
    - intros pl H. eexists. apply wn_lin, H.
    - intros pn H. eexists. apply wn_nl, H.
    - intros B H. eexists. apply wn_beta, H.
  Qed.
  Hypothesis Hs : s 0%nat = 0%nat.
  Lemma wn_u z k m : u_dm S' z k m = u_dm S z (s k) m.
  Proof. unfold u_dm. cbn [on_wavenumbers s_nfw_cen]. rewrite Hs. reflexivity. Qed.
  Lemma wn_us z k m : u_sat S' z k m = u_sat S z (s k) m.
  Proof. unfold u_sat. cbn [on_wavenumbers s_nfw_sat]. rewrite Hs. reflexivity. Qed.
  Lemma wn_matter b z k : same_matter S' S b z k b z (s k).
  Proof.
    constructor; try reflexivity.
    - intros. apply wn_u.
    - intros pl pl' H H'. rewrite (wn_lin _ H) in H'. inv_ok H'. reflexivity.
    - intros pl pl' H H'. rewrite (wn_nl _ H) in H'. inv_ok H'. reflexivity.
    - intros B B' H H'. rewrite (wn_beta _ H) in H'. inv_ok H'. reflexivity.
  Qed.
  Lemma wn_galaxies b z k : same_galaxies S' S b z k b z (s k).
  Proof. constructor; try reflexivity. intros. apply wn_us. Qed.

  Lemma wn_five x r : power_spectrum x S = Ok r ->
    exists r', power_spectrum x S' = Ok r' /\ forall b z i, same_at r' b z i r b z (s i).
  Proof.
    intros H. destruct (so_five _ _ wn_options _ _ H) as [r' H']. exists r'. split; [exact H'|]. intros b z i.
    exact (lo_five _ _ _ _ _ _ _ _ wn_options (wn_matter b z i) (wn_galaxies b z i) _ _ _ H H').
  Qed.
  Lemma wn_mm r : power_spectrum_mm S = Ok r ->
    exists r', power_spectrum_mm S' = Ok r' /\ forall b z i, same_at r' b z i r b z (s i).
  Proof.
    intros H. destruct (so_mm _ _ wn_options _ H) as [r' H']. exists r'. split; [exact H'|]. intros b z i.
    exact (lo_mm_full _ _ _ _ _ _ _ _ wn_options (wn_matter b z i) _ _ H H').
  Qed.
End Wavenumbers.

(** ** Other redshifts *)
Section Redshifts.
  Variables (n : nat) (s : nat -> nat) (S : spectra).
  Notation S' := (on_redshifts n s S).

  Lemma rs_lin pl : pk_lin S = Ok pl -> pk_lin S' = Ok (fun z k => pl (s z) k).
  Proof.
    unfold pk_lin. change (is_hmcode (s_mode S') || s_dewiggle S') with (is_hmcode (s_mode S) || s_dewiggle S).
    assert (R : raw_plin S' = rows2 n s (raw_plin S)).
    { unfold raw_plin. cbn [on_redshifts s_plin]. destruct (s_plin S); reflexivity. }
    rewrite R. destruct (is_hmcode (s_mode S) || s_dewiggle S).
    - unfold dewiggled. change (spacing_guard (s_nk S') (s_kvec S')) with (spacing_guard (s_nk S) (s_kvec S)).
      change (s_nk S') with (s_nk S). change (s_kvec S') with (s_kvec S). change (s_ns S') with (s_ns S). change (s_lnt S') with (s_lnt S).
      change (s_nz S') with n. cbn [rows2 a_cols]. intros H.
      destruct (spacing_guard (s_nk S) (s_kvec S)); [|discriminate H]. cbn [bind] in *.
      destruct (bcast (a_cols (raw_plin S)) (s_nk S)) as [c|]; [|discriminate H]. cbn [bind a_rows a_cols a_val rows2] in *.
      rewrite Nat.eqb_refl. cbn [andb]. destruct (Nat.eqb c (s_nk S)); [|rewrite andb_false_r in H; discriminate H].
      destruct (Nat.eqb _ _); [|discriminate H]. inv_ok H. reflexivity.
    - cbn [bind rows2 a_rows a_cols a_val]. change (s_nz S') with n. change (s_nk S') with (s_nk S). rewrite Nat.eqb_refl. cbn [andb].
      intros H. destruct (Nat.eqb (a_cols (raw_plin S)) (s_nk S)); [|rewrite andb_false_r in H; discriminate H].
      destruct (Nat.eqb _ _); [|discriminate H]. inv_ok H. reflexivity.
  Qed.
  Lemma rs_nl pn : pk_nl S = Ok (Some pn) -> pk_nl S' = Ok (Some (fun z k => pn (s z) k)).
  Proof.
    unfold pk_nl. change (is_fortuna (s_mode S') || s_response S') with (is_fortuna (s_mode S) || s_response S).
    cbn [on_redshifts s_pnl s_nz s_nk].
    destruct (is_fortuna (s_mode S) || s_response S); destruct (s_pnl S) as [x|]; cbn [option_map rows2 a_rows a_cols a_val]; intros H.
    - destruct (Nat.eqb (a_cols x) (s_nk S)); [|rewrite andb_false_r in H; discriminate H].
      rewrite Nat.eqb_refl. cbn [andb]. destruct (Nat.eqb _ _); [|discriminate H]. inv_ok H. reflexivity.
    - rewrite !Nat.eqb_refl in *. cbn [andb] in *. inv_ok H. reflexivity.
    - inv_ok H. reflexivity.
    - discriminate H.
  Qed.
  Lemma rs_beta B : beta_nl S = Ok B -> beta_nl S' = Ok (fun z k m1 m2 => B (s z) k m1 m2).
  Proof.
    unfold beta_nl. cbn [on_redshifts s_beta_nl s_emulator]. destruct (s_beta_nl S); cbn [option_map].
    - intros H. inv_ok H. reflexivity.
    - destruct (s_emulator S); [|discriminate]. intros H. inv_ok H. reflexivity.
  Qed.
  Lemma rs_options : same_options S' S.
  Proof.
    constructor; try reflexivity.
    - intros pl H. eexists. apply rs_lin, H.
    - intros pn H. eexists. apply rs_nl, H.
    - intros B H. eexists. apply rs_beta, H.
  Qed.
  Lemma rs_matter b z k : same_matter S' S b z k b (s z) k.
  Proof.
    constructor; try reflexivity.
    - intros pl pl' H H'. rewrite (rs_lin _ H) in H'. inv_ok H'. reflexivity.
    - intros pl pl' H H'. rewrite (rs_nl _ H) in H'. inv_ok H'. reflexivity.
    - intros B B' H H'. rewrite (rs_beta _ H) in H'. inv_ok H'. reflexivity.
  Qed.
  Lemma rs_mm r : power_spectrum_mm S = Ok r ->
    exists r', power_spectrum_mm S' = Ok r' /\ forall b i k, same_at r' b i k r b (s i) k.
  Proof.
    intros H. destruct (so_mm _ _ rs_options _ H) as [r' H']. exists r'. split; [exact H'|]. intros b z i.
    exact (lo_mm_full _ _ _ _ _ _ _ _ rs_options (rs_matter b z i) _ _ H H').
  Qed.

  (** The halo mass function interpolated to the HOD redshifts is the same. *)
  Variable b : nat.
  Hypothesis Hn : (2 <= nz (s_hod_set S))%nat.
  Hypothesis Hint : forall j m, (j < nz (s_hod_set S))%nat -> dndlnm_int (hctx S') b j m = dndlnm_int (hctx S) b j m.

  Lemma rs_cen m : forall j, compute_hod_cen (hctx S') (s_hod S) b j m = compute_hod_cen (hctx S) (s_hod S) b j m.
  Proof. intros j. destruct (s_hod S); reflexivity. Qed.
  Lemma rs_sat m : forall j, compute_hod_sat (hctx S') (s_hod S) b j m = compute_hod_sat (hctx S) (s_hod S) b j m.
  Proof. intros j. destruct (s_hod S); reflexivity. Qed.
  Lemma rs_hod m : forall j, compute_hod (hctx S') (s_hod S) b j m = compute_hod (hctx S) (s_hod S) b j m.
  Proof. intros j. unfold compute_hod. rewrite rs_cen, rs_sat. reflexivity. Qed.
  Lemma rs_int h h' j : (j < nz (s_hod_set S))%nat -> (forall m, h' b j m = h b j m) ->
    mass_integral (hctx S') h' b j = mass_integral (hctx S) h b j.
  Proof.
    intros Hj Hh. unfold mass_integral. change (c_nm (hctx S')) with (c_nm (hctx S)). change (c_mass (hctx S')) with (c_mass (hctx S)).
    apply simpson_pw. intros m. rewrite Hh, Hint by exact Hj. reflexivity.
  Qed.
  Lemma rs_mint h h' j : (j < nz (s_hod_set S))%nat -> (forall m, h' b j m = h b j m) ->
    mean_mass_integral (hctx S') h' b j = mean_mass_integral (hctx S) h b j.
  Proof.
    intros Hj Hh. unfold mean_mass_integral. change (c_nm (hctx S')) with (c_nm (hctx S)). change (c_mass (hctx S')) with (c_mass (hctx S)).
    apply simpson_pw. intros m. rewrite Hh, Hint by exact Hj. reflexivity.
  Qed.
  Lemma rs_zi f d d' i : (forall j, (j < nz (s_hod_set S))%nat -> d' b j = d b j) ->
    z_interpolate (hctx S') f d' b i = z_interpolate (hctx S) f d b (s i).
  Proof.
    intros H. unfold z_interpolate. change (c_set (hctx S')) with (s_hod_set S). change (c_set (hctx S)) with (s_hod_set S).
    change (c_zvec (hctx S') i) with (c_zvec (hctx S) (s i)). apply interp1d_ext; [exact Hn|exact H].
  Qed.
  Lemma rs_galaxies i k : same_galaxies S' S b i k b (s i) k.
  Proof.
    constructor; try reflexivity.
    - unfold sF_c, f_c. change (s_hod S') with (s_hod S). apply rs_zi. intros j Hj. unfold ncen, ntot.
      apply div_eq; apply rs_int; try exact Hj; intros m; [apply rs_cen|apply rs_hod].
    - unfold sF_s, f_s. change (s_hod S') with (s_hod S). apply rs_zi. intros j Hj. unfold nsat, ntot.
      apply div_eq; apply rs_int; try exact Hj; intros m; [apply rs_sat|apply rs_hod].
    - unfold sn_c, number_density_cen. change (s_hod S') with (s_hod S). apply rs_zi. intros j Hj. apply rs_int; [exact Hj|].
      intros m. apply rs_cen.
    - unfold sn_s, number_density_sat. change (s_hod S') with (s_hod S). apply rs_zi. intros j Hj. apply rs_int; [exact Hj|].
      intros m. apply rs_sat.
    - unfold mass_avg. change (s_hod S') with (s_hod S). apply div_eq.
      + apply rs_zi. intros j Hj. apply rs_mint; [exact Hj|]. intros m. apply rs_cen.
      + apply rs_zi. intros j Hj. apply rs_int; [exact Hj|]. intros m. apply rs_hod.
  Qed.
  Lemma rs_five x r : power_spectrum x S = Ok r ->
    exists r', power_spectrum x S' = Ok r' /\ forall i k, same_at r' b i k r b (s i) k.
  Proof.
    intros H. destruct (so_five _ _ rs_options _ _ H) as [r' H']. exists r'. split; [exact H'|]. intros i k.
    exact (lo_five _ _ _ _ _ _ _ _ rs_options (rs_matter b i k) (rs_galaxies i k) _ _ _ H H').
  Qed.
End Redshifts.

(** ** One bin at a time *)
Section Bins.
  Variables (b : nat) (S : spectra).
  Notation S' := (only_bin b S).

  Lemma bi_z s j : (hs_file s = None -> (b < zbins s)%nat) -> hod_z (set_bin b s) 0 j = hod_z s b j.
  Proof.
    intros H. unfold hod_z, set_bin. destruct (hs_file s) eqn:E.
    - rewrite E. reflexivity.
    - cbn [hs_file hs_zmin hs_zmax combine nth]. specialize (H eq_refl). unfold zbins in H. rewrite E in H.
      rewrite combine_length in H.
      assert (C : nth b (combine (hs_zmin s) (hs_zmax s)) (0, 0) = (nth b (hs_zmin s) 0, nth b (hs_zmax s) 0)).
      { revert H. generalize (hs_zmin s) as l, (hs_zmax s) as l'. clear. induction b as [|c IH]; intros l l' H;
          destruct l as [|x l], l' as [|y l']; cbn [length] in H; try (cbn in H; lia).
        - reflexivity.
        - cbn [combine nth]. apply IH. cbn in H. lia. }
      rewrite C. unfold nz. rewrite E. reflexivity.
  Qed.
  Lemma bi_nz s : nz (set_bin b s) = nz s.
  Proof. unfold nz, set_bin. destruct (hs_file s) eqn:E; [rewrite E; reflexivity|reflexivity]. Qed.
  Lemma bi_nobs s : hs_nobs (set_bin b s) = hs_nobs s.
  Proof. unfold set_bin. destruct (hs_file s); reflexivity. Qed.
  Lemma bi_unit s : hs_unit (set_bin b s) = hs_unit s.
  Proof. unfold set_bin. destruct (hs_file s); reflexivity. Qed.
  Lemma bi_obs s j o : hod_obs (set_bin b s) 0 j o = hod_obs s b j o.
  Proof.
    unfold hod_obs. rewrite bi_nobs. f_equal; unfold log_obs_min, log_obs_max, set_bin; destruct (hs_file s) eqn:E; rewrite ?E; reflexivity.
  Qed.
  Lemma bi_par l : bin_par (par_bin b l) 0 = bin_par l b.
  Proof. reflexivity. Qed.

  (** Two HOD contexts, one for the bin alone. *)
  Variables (set : hod_settings).
  Hypothesis Hb : hs_file set = None -> (b < zbins set)%nat.
  Notation c := (ctx_of S set).
  Notation c' := (ctx_of S' (set_bin b set)).
  Notation md := (s_hod S).
  Notation md' := (model_bin b (s_hod S)).

  Lemma bi_cen j m : compute_hod_cen c' md' 0 j m = compute_hod_cen c md b j m.
  Proof.
    destruct (s_hod S) as [p|p|p|p|p]; cbn [model_bin compute_hod_cen simple_bin si_log10_Mmin si_A_cen zh_sigma zh_log10_Mmin zh_A_cen zi_sigma zi_log10_Mmin zi_A_cen];
      rewrite ?bi_par; try reflexivity.
    unfold cacciato_cen. cbn [ctx_of c_set]. rewrite bi_nobs. f_equal.
    change (simpson (hs_nobs set) (fun o => cof_cen p (hod_obs (set_bin b set) 0 j o) (s_mass S m)) (fun o => hod_obs (set_bin b set) 0 j o)
          = simpson (hs_nobs set) (fun o => cof_cen p (hod_obs set b j o) (s_mass S m)) (fun o => hod_obs set b j o)).
    f_equal; fx; rewrite bi_obs; reflexivity.
  Qed.
  Lemma bi_sat j m : compute_hod_sat c' md' 0 j m = compute_hod_sat c md b j m.
  Proof.
    assert (C := bi_cen j m).
    destruct (s_hod S) as [p|p|p|p|p]; cbn [model_bin] in *; cbn [compute_hod_sat];
      try (rewrite C; reflexivity); try reflexivity.
    unfold cacciato_sat. cbn [ctx_of c_set]. rewrite bi_nobs. f_equal.
    change (simpson (hs_nobs set) (fun o => cof_sat p (hod_obs (set_bin b set) 0 j o) (s_mass S m)) (fun o => hod_obs (set_bin b set) 0 j o)
          = simpson (hs_nobs set) (fun o => cof_sat p (hod_obs set b j o) (s_mass S m)) (fun o => hod_obs set b j o)).
    f_equal; fx; rewrite bi_obs; reflexivity.
  Qed.
  Lemma bi_hod j m : compute_hod c' md' 0 j m = compute_hod c md b j m.
  Proof. unfold compute_hod. rewrite bi_cen, bi_sat. reflexivity. Qed.
  Lemma bi_dn j m : dndlnm_int c' 0 j m = dndlnm_int c b j m.
  Proof. unfold dndlnm_int. cbn [ctx_of c_set]. rewrite bi_z by exact Hb. reflexivity. Qed.
  Lemma bi_int h h' j : (forall m, h' 0%nat j m = h b j m) -> mass_integral c' h' 0 j = mass_integral c h b j.
  Proof. intros H. unfold mass_integral. apply simpson_pw. intros m. rewrite H, bi_dn. reflexivity. Qed.
  Lemma bi_mint h h' j : (forall m, h' 0%nat j m = h b j m) -> mean_mass_integral c' h' 0 j = mean_mass_integral c h b j.
  Proof. intros H. unfold mean_mass_integral. apply simpson_pw. intros m. rewrite H, bi_dn. reflexivity. Qed.
  Lemma bi_zi f d d' i : (forall j, d' 0%nat j = d b j) -> z_interpolate c' f d' 0 i = z_interpolate c f d b i.
  Proof.
    intros H. unfold z_interpolate. cbn [ctx_of c_set c_zvec]. rewrite bi_nz.
    replace (hod_z (set_bin b set) 0) with (hod_z set b) by (fx; rewrite bi_z by exact Hb; reflexivity).
    replace (d' 0%nat) with (d b) by (fx; rewrite H; reflexivity). reflexivity.
  Qed.
  Lemma bi_star i m : stellar_fraction c' md' 0 i m = stellar_fraction c md b i m.
  Proof.
    unfold stellar_fraction, stellar_fraction_of. destruct (s_hod S) as [p|p|p|p|p]; cbn [model_bin]; try reflexivity.
    unfold unit_scale. cbn [ctx_of c_set c_h]. rewrite bi_unit.
    rewrite (bi_zi Extrapolate (fun b j => star_frac c (COF c p) b j m)); [reflexivity|].
    intros j. unfold star_frac. cbn [ctx_of c_set c_mass]. rewrite bi_nobs. f_equal.
    change (simpson (hs_nobs set) (fun o => cof p (hod_obs (set_bin b set) 0 j o) (s_mass S m) * hod_obs (set_bin b set) 0 j o) (fun o => hod_obs (set_bin b set) 0 j o)
          = simpson (hs_nobs set) (fun o => cof p (hod_obs set b j o) (s_mass S m) * hod_obs set b j o) (fun o => hod_obs set b j o)).
    f_equal; fx; rewrite bi_obs; reflexivity.
  Qed.
End Bins.

Section Bins2.
  Variables (b : nat) (S : spectra).
  Notation S' := (only_bin b S).
  Hypothesis Hb : hs_file (s_hod_set S) = None -> (b < zbins (s_hod_set S))%nat.
  Hypothesis Hmm : stars_in_matter (s_ingr S) (s_hod S) = true -> hs_file (s_hod_set_mm S) = None ->
    (b < zbins (s_hod_set_mm S))%nat \/ zbins (s_hod_set_mm S) = 1%nat.

  Lemma bi_options : same_options S' S.
  Proof.
    constructor; try reflexivity.
    - intros pl H. exists pl. exact H.
    - intros pn H. exists pn. exact H.
    - intros B H. exists B. exact H.
  Qed.
  Lemma stellar_set_bin0 s j m : zbins s = 1%nat -> model_bin b (s_hod S) = s_hod S ->
    stellar_fraction (ctx_of S' s) (s_hod S') 0 j m = stellar_fraction (ctx_of S s) (s_hod S) 0 j m.
  Proof. intros _ Hm. change (s_hod S') with (model_bin b (s_hod S)). rewrite Hm. reflexivity. Qed.
  Lemma zbins_set_bin s : zbins (set_bin b s) = 1%nat.
  Proof. unfold zbins, set_bin. destruct (hs_file s) eqn:E; [rewrite E; reflexivity|reflexivity]. Qed.
  Lemma bi_fmm i m : fstar_mm S' 0 i m = fstar_mm S b i m.
  Proof.
    unfold fstar_mm. change (s_ingr S') with (s_ingr S). change (s_hod S') with (model_bin b (s_hod S)).
    change (s_hod_set_mm S') with (set_mm_bin b (s_hod_set_mm S)).
    destruct (s_ingr S) eqn:Ei; try reflexivity. destruct (s_hod S) as [p|p|p|p|p] eqn:Eh; try reflexivity.
    cbn [model_bin]. unfold set_mm_bin. destruct (Nat.eqb (zbins (s_hod_set_mm S)) 1) eqn:Ez.
    - rewrite Ez. reflexivity.
    - rewrite zbins_set_bin. cbn [Nat.eqb].
      pose proof (bi_star b S (s_hod_set_mm S)) as H. rewrite Eh in H. cbn [model_bin] in H. apply H.
      intros Hf. destruct (Hmm eq_refl Hf) as [L|L]; [exact L|]. rewrite L in Ez. discriminate Ez.
  Qed.
  Lemma bi_matter i k : same_matter S' S 0 i k b i k.
  Proof.
    constructor; try reflexivity.
    - intros m. apply bi_fmm.
    - intros pl pl' H H'. change (pk_lin S') with (pk_lin S) in H'. congruence.
    - intros pl pl' H H'. change (pk_nl S') with (pk_nl S) in H'. congruence.
    - intros B B' H H'. change (beta_nl S') with (beta_nl S) in H'. congruence.
  Qed.
  Lemma bi_galaxies i k : same_galaxies S' S 0 i k b i k.
  Proof.
    constructor; try reflexivity.
    - unfold sF_c, f_c. change (s_hod S') with (model_bin b (s_hod S)). apply bi_zi; [exact Hb|]. intros j. unfold ncen, ntot.
      apply div_eq; apply bi_int; try exact Hb; intros m; [apply bi_cen|apply bi_hod].
    - unfold sF_s, f_s. change (s_hod S') with (model_bin b (s_hod S)). apply bi_zi; [exact Hb|]. intros j. unfold nsat, ntot.
      apply div_eq; apply bi_int; try exact Hb; intros m; [apply bi_sat|apply bi_hod].
    - intros m. apply bi_zi; [exact Hb|]. intros j. apply bi_cen.
    - intros m. apply bi_zi; [exact Hb|]. intros j. apply bi_sat.
    - apply bi_zi; [exact Hb|]. intros j. apply bi_int; [exact Hb|]. intros m. apply bi_cen.
    - apply bi_zi; [exact Hb|]. intros j. apply bi_int; [exact Hb|]. intros m. apply bi_sat.
    - intros m. apply bi_star. exact Hb.
    - unfold mass_avg. apply div_eq; apply bi_zi; try exact Hb; intros j.
      + apply bi_mint; [exact Hb|]. intros m. apply bi_cen.
      + apply bi_int; [exact Hb|]. intros m. apply bi_hod.
  Qed.
  Lemma bi_five x r : power_spectrum x S = Ok r ->
    exists r', power_spectrum x S' = Ok r' /\ forall i k, same_at r' 0 i k r b i k.
  Proof.
    intros H. destruct (so_five _ _ bi_options _ _ H) as [r' H']. exists r'. split; [exact H'|]. intros i k.
    exact (lo_five _ _ _ _ _ _ _ _ bi_options (bi_matter i k) (bi_galaxies i k) _ _ _ H H').
  Qed.
  Lemma bi_mm r : power_spectrum_mm S = Ok r ->
    exists r', power_spectrum_mm S' = Ok r' /\ forall i k, same_at r' 0 i k r b i k.
  Proof.
    intros H. destruct (so_mm _ _ bi_options _ H) as [r' H']. exists r'. split; [exact H'|]. intros i k.
    exact (lo_mm_full _ _ _ _ _ _ _ _ bi_options (bi_matter i k) _ _ H H').
  Qed.
End Bins2.
