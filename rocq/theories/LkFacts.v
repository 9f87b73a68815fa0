(** The spectra of the legacy module and those of Spectra, computed from the same numbers. *)
From Coq Require Import ZArith.
From Verif Require Import Base Spec Quad Interp HodModel PkModel PipeModel OptModel ChainModel QuadFacts PkFacts LkModel LkSpec.
Open Scope R_scope.

Lemma trapezoid_ext n f g x y : (forall i, (i <= n)%nat -> f i = g i) -> (forall i, (i <= n)%nat -> x i = y i) -> trapezoid n f x = trapezoid n g y.
Proof.
  induction n as [|n IH]; intros F X; [reflexivity|]. cbn [trapezoid]. rewrite IH by (intros; (apply F || apply X); lia).
  rewrite !F, !X by lia. reflexivity.
Qed.
Lemma trap_ext n w f g : (forall i, (i < n)%nat -> f i = g i) -> trap_integrate n w f = trap_integrate n w g.
Proof. intros F. apply sumR_ext. intros i Hi. now rewrite F. Qed.
Lemma trap_swap n w (f : A2) : trap_integrate n w (fun a => trap_integrate n w (fun c => f a c)) = trap_integrate n w (fun c => trap_integrate n w (fun a => f a c)).
Proof.
  unfold trap_integrate. rewrite (sumR_ext n _ (fun a => sumR n (fun c => f a c * w c * w a))).
  2: { intros a _. rewrite (Rmult_comm (sumR _ _)), <- sumR_scal. apply sumR_ext. intros; ring. }
  rewrite sumR_swap. apply sumR_ext. intros c _. rewrite (Rmult_comm (sumR _ _)), <- sumR_scal. apply sumR_ext. intros; ring.
Qed.

Section Alike.
  Variables (x : lk) (c : kconfig) (S : spectra) (pl : A2).
  Hypothesis H : halos_alike x S pl.
  Let nm1 : (1 <= s_nm S)%nat := ha_some _ _ _ H.
  Ltac pts := rewrite ?(ha_mass _ _ _ H), ?(ha_dn _ _ _ H), ?(ha_b _ _ _ H) by lia.

  Lemma A_alike j : (j < s_nz S)%nat -> lk_A x j = A_term S j.
  Proof.
    intros J. unfold lk_A, A_term. f_equal. rewrite (ha_nm _ _ _ H). apply simpson_ext; [exact nm1| |intros; pts; reflexivity].
    intros m M. pts. now rewrite (ha_rho _ _ _ H).
  Qed.
  Lemma Im_alike j i : (j < s_nz S)%nat -> (i < s_nk S)%nat -> lk_Im x j i = Im_term S j i.
  Proof.
    intros J I. unfold lk_Im, Im_term. rewrite (A_alike j J). f_equal. rewrite (ha_nm _ _ _ H). apply simpson_ext; [exact nm1| |intros; pts; reflexivity].
    intros m M. pts. now rewrite (ha_rho _ _ _ H), (ha_udm _ _ _ H).
  Qed.
  Variable nb : nat.
  Notation al := (fun W V => profile_alike W V S nb).
  Lemma one_halo_alike W W' V V' j i : al W V -> al W' V' -> (j < s_nz S)%nat -> (i < s_nk S)%nat -> lk_1h x W W' j i = one_halo S V V' nb j i.
  Proof.
    intros A A' J I. unfold lk_1h, one_halo. rewrite (ha_nm _ _ _ H). apply simpson_ext; [exact nm1| |intros; pts; reflexivity].
    intros m M. pts. now rewrite (A j i m), (A' j i m).
  Qed.
  Lemma Ig_alike W V j i : al W V -> (j < s_nz S)%nat -> (i < s_nk S)%nat -> lk_Ig x W j i = Ig_term S V nb j i.
  Proof.
    intros A J I. unfold lk_Ig, Ig_term. rewrite (ha_nm _ _ _ H). apply simpson_ext; [exact nm1| |intros; pts; reflexivity].
    intros m M. pts. now rewrite (A j i m).
  Qed.
  Lemma Ia_alike W V j i : al W V -> (j < s_nz S)%nat -> (i < s_nk S)%nat -> lk_Ia x W j i = I_align S V nb j i.
  Proof. intros A J I. unfold lk_Ia, I_align. rewrite (Ig_alike W V), (A_alike j J), (A j i 0%nat), (ha_rho _ _ _ H), (ha_mass _ _ _ H) by (assumption || lia). reflexivity. Qed.
  (** The beyond-linear integral. *)
  Lemma INL_alike W W' V V' B r j i : al W V -> al W' V' -> I_NL S V V' B = Ok r -> (j < s_nz S)%nat -> (i < s_nk S)%nat ->
    (forall m1 m2, (m1 < s_nm S)%nat -> (m2 < s_nm S)%nat -> x_beta x j m1 m2 i = B j i m1 m2 /\ B j i m1 0%nat = B j i 0%nat m1) ->
    lk_INL x W W' j i = r nb j i.
  Proof.
    intros A A' R J I E. unfold I_NL in R. destruct (trap_weights (s_nm S) (s_mass S)) as [w|e] eqn:T; [|discriminate]. cbn [bind] in R. injection R as <-.
    assert (T' : forall f g, (forall m, (m < s_nm S)%nat -> f m = g m) -> trapezoid (x_nm x - 1) f (x_mass x) = trap_integrate (s_nm S) w g).
    { intros f g F. rewrite (trap_classical _ _ _ _ T), (ha_nm _ _ _ H). apply trapezoid_ext; [intros; apply F; lia|intros; apply (ha_mass _ _ _ H); lia]. }
    assert (E1 : forall m1 m2, (m1 < s_nm S)%nat -> (m2 < s_nm S)%nat -> x_beta x j m1 m2 i = B j i m1 m2) by (intros; now apply E).
    assert (E2 : forall m, (m < s_nm S)%nat -> B j i m 0%nat = B j i 0%nat m) by (intros m M; apply (E m 0%nat); [exact M|lia]).
    unfold lk_INL, I_NL_w. cbv zeta. rewrite (A_alike j J), !(A j i 0%nat), !(A' j i 0%nat), (ha_rho _ _ _ H), (ha_mass _ _ _ H 0%nat), E1 by (assumption || lia).
    f_equal; [f_equal; [f_equal|]|].
    - unfold Rdiv. rewrite Rinv_mult. ring.
    - rewrite (T' _ (fun m => I12_part S B j i m * V' nb j i m)); [unfold Rdiv; ring|]. intros m M. pts. rewrite E1, E2, (A' j i m) by (assumption || lia).
      unfold I12_part, w_bnl, Rdiv. ring.
    - rewrite (T' _ (fun m => I21_part S B j i m * V nb j i m)); [unfold Rdiv; ring|]. intros m M. pts. rewrite E1, <- E2, (A j i m) by (assumption || lia).
      unfold I21_part, w_bnl, Rdiv. ring.
    - rewrite (T' _ (fun m2 => trap_integrate (s_nm S) w (fun m1 => I22_part S B j i m1 m2 * V' nb j i m2 * V nb j i m1))).
      + rewrite <- trap_swap. apply trap_ext. intros m1 M1. unfold trap_integrate. rewrite (Rmult_comm (sumR _ _)), <- sumR_scal. apply sumR_ext. intros; ring.
      + intros m2 M2. apply T'. intros m1 M1. pts. rewrite E1, (A j i m1), (A' j i m2) by assumption. unfold I22_part, w_bnl, Rdiv. rewrite Rinv_mult. ring.
  Qed.

  (** Profiles. *)
  Lemma matter_alike : al (W_m x 0) (matter_profile S).
  Proof. intros j i m J I M. unfold W_m, matter_profile. rewrite (ha_mass _ _ _ H), (ha_udm _ _ _ H), (ha_rho _ _ _ H) by assumption. ring. Qed.
  Lemma feedback_alike logT : x_fnu x = 0 -> s_logT S = logT -> al (W_feedback x logT) (matter_profile_fb S).
  Proof.
    intros F <- j i m J I M. unfold W_feedback, matter_profile_fb.
    rewrite F, (ha_mass _ _ _ H), (ha_udm _ _ _ H), (ha_rho _ _ _ H), (ha_z _ _ _ H), (ha_oc _ _ _ H), (ha_om _ _ _ H), (ha_ob _ _ _ H) by assumption. ring.
  Qed.
  Lemma obs_alike mb (f : A2) (g : A3) : x_fnu x = 0 -> s_mb S = mb -> (forall j m, (j < s_nz S)%nat -> (m < s_nm S)%nat -> f j m = g nb j m) ->
    al (W_obs x mb f) (matter_profile_obs S g).
  Proof.
    intros F <- E j i m J I M. unfold W_obs, matter_profile_obs.
    rewrite F, (ha_mass _ _ _ H), (ha_udm _ _ _ H), (ha_rho _ _ _ H), (ha_oc _ _ _ H), (ha_om _ _ _ H), (ha_ob _ _ _ H), E by assumption. ring.
  Qed.
  Variable h : bin.
  Section Galaxies.
    Hypothesis HB : bin_alike h S nb.
    Lemma cen_alike : al (W_c h) (cen_profile S).
    Proof. intros j i m J I M. unfold W_c, W_gal, cen_profile. now rewrite (ba_fc _ _ _ HB), (ba_Nc _ _ _ HB), (ba_nc _ _ _ HB). Qed.
    Lemma sat_alike : al (W_s x h) (sat_profile S).
    Proof. intros j i m J I M. unfold W_s, W_gal, sat_profile. now rewrite (ba_fs _ _ _ HB), (ba_Ns _ _ _ HB), (ba_ns _ _ _ HB), (ha_usat _ _ _ H). Qed.
    Lemma gal_alike : al (W_g x h) (gal_profile S).
    Proof. intros j i m J I M. unfold W_g, gal_profile. now rewrite cen_alike, sat_alike. Qed.
    Hypothesis HI : ia_alike h S nb.
    Lemma scaled_alike p be mp j : scaling_alike p be mp (bi_avg h) S nb -> (j < s_nz S)%nat -> scaled p (bi_avg h) j = mass_scaling S be mp nb j.
    Proof. unfold scaled, mass_scaling. destruct p as [[e m]|]; cbn; [intros (-> & -> & A) J; now rewrite A|intros [-> | ->] _; [|destruct be]; reflexivity]. Qed.
    Lemma cen_ia_alike : al (W_cen_ia x h) (cen_align S).
    Proof.
      intros j i m J I M. unfold W_cen_ia, cen_align, C1.
      now rewrite (ba_fc _ _ _ HB), (ia_a_gi _ _ _ HI), (ha_growth _ _ _ H), (ha_mass _ _ _ H), (scaled_alike _ _ _ j (ia_a_cen _ _ _ HI) J).
    Qed.
    Lemma sat_ia_alike : al (W_sat_ia h) (sat_align S).
    Proof.
      intros j i m J I M. unfold W_sat_ia, sat_align.
      now rewrite (ba_fs _ _ _ HB), (ba_Ns _ _ _ HB), (ba_ns _ _ _ HB), (ia_a_wkm _ _ _ HI), (scaled_alike _ _ _ j (ia_a_sat _ _ _ HI) J).
    Qed.
    Lemma gal_ia_alike : al (W_ia x h) (gal_align S).
    Proof. intros j i m J I M. unfold W_ia, gal_align. now rewrite cen_ia_alike, sat_ia_alike. Qed.
    Lemma amp_gi_alike j : (j < s_nz S)%nat -> amp_gi x h j = amp_2h S j.
    Proof. intros J. unfold amp_gi, amp_2h, C1. rewrite (ia_a_gi _ _ _ HI), (ha_growth _ _ _ H), (ha_rho _ _ _ H) by assumption. unfold Rdiv. ring. Qed.
    Lemma amp_ii_alike j : (j < s_nz S)%nat -> amp_ii x h j = amp_2h_II S j.
    Proof. intros J. unfold amp_ii, amp_2h_II, C1. rewrite (ia_a_gi _ _ _ HI), (ha_growth _ _ _ H), (ha_rho _ _ _ H) by assumption. f_equal. unfold Rdiv. ring. Qed.
  End Galaxies.
  (** Truncations. *)
  Hypothesis HA : asks_alike c S.
  Lemma tr1_alike i : (i < s_nk S)%nat -> tr1 x c i = t1 S i. Proof. intros I. unfold tr1, t1. now rewrite (ha_k _ _ _ H), (aa_k1 _ _ HA). Qed.
  Lemma tr2_alike i : (i < s_nk S)%nat -> tr2 x c i = t2 S i. Proof. intros I. unfold tr2, t2. now rewrite (ha_k _ _ _ H), (aa_k2 _ _ HA). Qed.
  Lemma tr1i_alike i : (i < s_nk S)%nat -> tr1i x c i = t1i S i. Proof. intros I. unfold tr1i, t1i. now rewrite (ha_k _ _ _ H), (aa_k1i _ _ HA). Qed.
  Lemma tr2i_alike i : (i < s_nk S)%nat -> tr2i x c i = t2i S i. Proof. intros I. unfold tr2i, t2i. now rewrite (ha_k _ _ _ H), (aa_k2i _ _ HA). Qed.
  Lemma bnl_alike : kc_bnl c = is_bnl (s_mode S).
  Proof. pose proof (aa_mode _ _ HA) as M. unfold mode_of in M. destruct (kc_bnl c), (kc_fortuna c), (kc_mead c) as [[| |]|]; inversion M as [E]; reflexivity. Qed.
  Lemma fortuna_alike : kc_fortuna c = is_fortuna (s_mode S).
  Proof. pose proof (aa_mode _ _ HA) as M. unfold mode_of in M. destruct (kc_bnl c), (kc_fortuna c), (kc_mead c) as [[| |]|]; inversion M as [E]; reflexivity. Qed.
End Alike.
