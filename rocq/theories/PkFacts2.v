(** Bilinearity, scaling, response and mass integrals of the power spectra model. *)
From Coq Require Import FunctionalExtensionality.
From Coquelicot Require Import Coquelicot.
From Verif Require Import Base Spec Quad Interp HodModel HodSpec Dewiggle PkModel PkSpec BaseFacts QuadFacts
  InterpFacts NumFacts HodFacts HodFacts2 PkFacts.
Open Scope R_scope.

Lemma simpson_pw n f g x : (forall i, f i = g i) -> simpson n f x = simpson n g x.
Proof. intros H. replace g with f by (apply functional_extensionality, H). reflexivity. Qed.

Lemma trap_pw n w f g : (forall i, f i = g i) -> trap_integrate n w f = trap_integrate n w g.
Proof. intros H. replace g with f by (apply functional_extensionality, H). reflexivity. Qed.

(** ** One-halo terms are symmetric and bilinear *)
Lemma one_halo_sym S u v b z k : one_halo S u v b z k = one_halo S v u b z k.
Proof. unfold one_halo. apply simpson_pw. intros m. unfold Rdiv. ring. Qed.

Lemma one_halo_scal_r S u v c b z k :
  one_halo S u (fun b z k m => c * v b z k m) b z k = c * one_halo S u v b z k.
Proof.
  unfold one_halo. rewrite <- simpson_scal. apply simpson_pw. intros m. unfold Rdiv. ring.
Qed.

(** ** The beta_nl correction *)
Section INL.
  Variable S : spectra.
  Variables (w A rho : nat -> R) (B : nat -> nat -> nat -> nat -> R).
  Notation inl := (fun W1 W2 => I_NL_w S w W1 W2 A rho B).

  Lemma I_NL_lin_l (x y : R) U V W b z k :
    inl (fun b z k m => x * U b z k m + y * V b z k m) W b z k
    = x * inl U W b z k + y * inl V W b z k.
  Proof.
    unfold I_NL_w.
    rewrite (trap_pw _ _ (fun m1 => trap_integrate (s_nm S) w (fun m2 => I22_part S B z k m1 m2 * W b z k m2)
                                * (x * U b z k m1 + y * V b z k m1))
      (fun m1 => x * (trap_integrate (s_nm S) w (fun m2 => I22_part S B z k m1 m2 * W b z k m2) * U b z k m1)
               + y * (trap_integrate (s_nm S) w (fun m2 => I22_part S B z k m1 m2 * W b z k m2) * V b z k m1)))
      by (intros; ring).
    rewrite (trap_pw _ _ (fun m => I21_part S B z k m * (x * U b z k m + y * V b z k m))
      (fun m => x * (I21_part S B z k m * U b z k m) + y * (I21_part S B z k m * V b z k m)))
      by (intros; ring).
    rewrite !trap_int_plus, !trap_int_scal. ring.
  Qed.

  Lemma I_NL_lin_r (x y : R) U V W b z k :
    inl W (fun b z k m => x * U b z k m + y * V b z k m) b z k
    = x * inl W U b z k + y * inl W V b z k.
  Proof.
    unfold I_NL_w.
    rewrite (trap_pw _ _ (fun m1 => trap_integrate (s_nm S) w
        (fun m2 => I22_part S B z k m1 m2 * (x * U b z k m2 + y * V b z k m2)) * W b z k m1)
      (fun m1 => x * (trap_integrate (s_nm S) w (fun m2 => I22_part S B z k m1 m2 * U b z k m2) * W b z k m1)
               + y * (trap_integrate (s_nm S) w (fun m2 => I22_part S B z k m1 m2 * V b z k m2) * W b z k m1))).
    2:{ intros m1.
        rewrite (trap_pw _ _ (fun m2 => I22_part S B z k m1 m2 * (x * U b z k m2 + y * V b z k m2))
          (fun m2 => x * (I22_part S B z k m1 m2 * U b z k m2) + y * (I22_part S B z k m1 m2 * V b z k m2)))
          by (intros; ring).
        rewrite trap_int_plus, !trap_int_scal. ring. }
    rewrite (trap_pw _ _ (fun m => I12_part S B z k m * (x * U b z k m + y * V b z k m))
      (fun m => x * (I12_part S B z k m * U b z k m) + y * (I12_part S B z k m * V b z k m)))
      by (intros; ring).
    rewrite !trap_int_plus, !trap_int_scal. ring.
  Qed.

  Lemma I_NL_sym W1 W2 b z k : (forall z k m1 m2, B z k m1 m2 = B z k m2 m1) ->
    inl W1 W2 b z k = inl W2 W1 b z k.
  Proof.
    intros HB. unfold I_NL_w.
    assert (E : trap_integrate (s_nm S) w (fun m1 => trap_integrate (s_nm S) w
                  (fun m2 => I22_part S B z k m1 m2 * W2 b z k m2) * W1 b z k m1)
              = trap_integrate (s_nm S) w (fun m1 => trap_integrate (s_nm S) w
                  (fun m2 => I22_part S B z k m1 m2 * W1 b z k m2) * W2 b z k m1)).
    { unfold trap_integrate.
      transitivity (sumR (s_nm S) (fun m1 => sumR (s_nm S) (fun m2 =>
        I22_part S B z k m1 m2 * W2 b z k m2 * w m2 * W1 b z k m1 * w m1))).
      - apply sumR_ext; intros m1 _. rewrite Rmult_assoc, Rmult_comm, <- sumR_scal.
        apply sumR_ext; intros; ring.
      - rewrite sumR_swap. apply sumR_ext; intros m2 _. rewrite Rmult_assoc, Rmult_comm, <- sumR_scal.
        apply sumR_ext; intros m1 _. unfold I22_part. rewrite (HB z k m1 m2). ring. }
    rewrite E.
    rewrite (trap_pw _ _ (fun m => I12_part S B z k m * W2 b z k m) (fun m => I21_part S B z k m * W2 b z k m))
      by (intros m; unfold I12_part, I21_part; rewrite (HB z k m 0%nat); reflexivity).
    rewrite (trap_pw _ _ (fun m => I12_part S B z k m * W1 b z k m) (fun m => I21_part S B z k m * W1 b z k m))
      by (intros m; unfold I12_part, I21_part; rewrite (HB z k m 0%nat); reflexivity).
    ring.
  Qed.

  (** One-field integral with its low-mass compensation. *)
  Definition one_field (W : nat -> nat -> nat -> nat -> R) (b z k : nat) : R :=
    trap_integrate (s_nm S) w (fun m => s_bias S z m * s_dndlnm S z m / s_mass S m * W b z k m)
    + A z * W b z k 0%nat * rho z / s_mass S 0%nat.

  Lemma I_NL_const W1 W2 c b z k : (forall z k m1 m2, B z k m1 m2 = c) ->
    inl W1 W2 b z k = c * one_field W1 b z k * one_field W2 b z k.
  Proof.
    intros HB. unfold I_NL_w, one_field.
    set (T1 := trap_integrate (s_nm S) w (fun m => s_bias S z m * s_dndlnm S z m / s_mass S m * W1 b z k m)).
    set (T2 := trap_integrate (s_nm S) w (fun m => s_bias S z m * s_dndlnm S z m / s_mass S m * W2 b z k m)).
    assert (E12 : trap_integrate (s_nm S) w (fun m => I12_part S B z k m * W2 b z k m) = c * T2).
    { unfold T2. rewrite <- trap_int_scal. apply trap_pw. intros m. unfold I12_part, w_bnl.
      rewrite HB. unfold Rdiv. ring. }
    assert (E21 : trap_integrate (s_nm S) w (fun m => I21_part S B z k m * W1 b z k m) = c * T1).
    { unfold T1. rewrite <- trap_int_scal. apply trap_pw. intros m. unfold I21_part, w_bnl.
      rewrite HB. unfold Rdiv. ring. }
    assert (E22 : trap_integrate (s_nm S) w (fun m1 => trap_integrate (s_nm S) w
                    (fun m2 => I22_part S B z k m1 m2 * W2 b z k m2) * W1 b z k m1) = c * T1 * T2).
    { rewrite (trap_pw _ _ _ (fun m1 => (c * T2) * (s_bias S z m1 * s_dndlnm S z m1 / s_mass S m1 * W1 b z k m1))).
      - rewrite trap_int_scal. fold T1. ring.
      - intros m1. rewrite (trap_pw _ _ _ (fun m2 => (c * w_bnl S z m1) *
          (s_bias S z m2 * s_dndlnm S z m2 / s_mass S m2 * W2 b z k m2))).
        + rewrite trap_int_scal. fold T2. unfold w_bnl, Rdiv. ring.
        + intros m2. unfold I22_part. rewrite HB. unfold w_bnl, Rdiv. ring. }
    rewrite E12, E21, E22, HB. unfold Rdiv. ring.
  Qed.
End INL.

Lemma trap_scal_arg S w W1 W2 A rho B c b z k :
  I_NL_w S w (fun b z k m => c * W1 b z k m) W2 A rho B b z k = c * I_NL_w S w W1 W2 A rho B b z k.
Proof.
  pose proof (I_NL_lin_l S w A rho B c 0 W1 W1 W2 b z k) as H. cbv beta in H.
  replace (fun b z k m => c * W1 b z k m + 0 * W1 b z k m) with (fun b z k m => c * W1 b z k m) in H
    by (do 4 (apply functional_extensionality; intros); ring).
  rewrite H. ring.
Qed.
Lemma trap_scal_arg_r S w W1 W2 A rho B c b z k :
  I_NL_w S w W1 (fun b z k m => c * W2 b z k m) A rho B b z k = c * I_NL_w S w W1 W2 A rho B b z k.
Proof.
  pose proof (I_NL_lin_r S w A rho B c 0 W2 W2 W1 b z k) as H. cbv beta in H.
  replace (fun b z k m => c * W2 b z k m + 0 * W2 b z k m) with (fun b z k m => c * W2 b z k m) in H
    by (do 4 (apply functional_extensionality; intros); ring).
  rewrite H. ring.
Qed.

(** ** Rescaling the alignment amplitudes *)
Section Amplitude.
  Variables (a : R) (S : spectra).
  Notation S' := (with_amplitude a S).

  Lemma cen_align_scal : cen_align S' = fun b z k m => a * cen_align S b z k m.
  Proof.
    do 4 (apply functional_extensionality; intros).
    change (cen_align S' x x0 x1 x2) with
      (sF_c S x x0 * (5 / 100000000000000 * (a * s_gi S x0) / s_growth S x0) * s_mass S x2
       * mass_scaling S (s_beta_cen S) (s_mpivot_cen S) x x0).
    unfold cen_align, C1, Rdiv. ring.
  Qed.
  Lemma sat_align_scal : sat_align S' = fun b z k m => a * sat_align S b z k m.
  Proof.
    do 4 (apply functional_extensionality; intros).
    change (sat_align S' x x0 x1 x2) with
      (sF_s S x x0 * sN_s S x x0 x2 * (a * s_wkm S x0 x1 x2) / sn_s S x x0
       * mass_scaling S (s_beta_sat S) (s_mpivot_sat S) x x0).
    unfold sat_align, Rdiv. ring.
  Qed.
  Lemma gal_align_scal : gal_align S' = fun b z k m => a * gal_align S b z k m.
  Proof.
    unfold gal_align. rewrite cen_align_scal, sat_align_scal.
    do 4 (apply functional_extensionality; intros). ring.
  Qed.
  Lemma I_align_scal p b z k : I_align S' (fun b z k m => a * p b z k m) b z k = a * I_align S p b z k.
  Proof.
    unfold I_align, Ig_term.
    change (s_nm S') with (s_nm S). change (s_bias S') with (s_bias S). change (s_dndlnm S') with (s_dndlnm S).
    change (s_mass S') with (s_mass S). change (A_term S') with (A_term S). change (s_rho S') with (s_rho S).
    rewrite (simpson_pw _ _ (fun m => a * (p b z k m * s_bias S z m * s_dndlnm S z m / s_mass S m)))
      by (intros; unfold Rdiv; ring).
    rewrite simpson_scal. unfold Rdiv. ring.
  Qed.
  Lemma Ic_align_scal b z k : Ic_align S' b z k = a * Ic_align S b z k.
  Proof. unfold Ic_align. rewrite cen_align_scal. apply I_align_scal. Qed.
  Lemma Is_align_scal b z k : Is_align S' b z k = a * Is_align S b z k.
  Proof. unfold Is_align. rewrite sat_align_scal. apply I_align_scal. Qed.
End Amplitude.

Lemma respond_scaled a S c r r' r1 : multiple_of c r r' -> respond S r = Ok r1 ->
  exists r1', respond (with_amplitude a S) r' = Ok r1' /\ multiple_of c r1 r1'.
Proof.
  intros [Hb Hc] H. unfold respond in *.
  change (s_response (with_amplitude a S)) with (s_response S).
  change (pk_nl (with_amplitude a S)) with (pk_nl S).
  change (power_spectrum_mm_raw (with_amplitude a S)) with (power_spectrum_mm_raw S).
  destruct (s_response S).
  - inv_bind H. inv_bind H. destruct a0 as [pn|]; [|discriminate]. cbn [bind]. inv_ok H.
    eexists. split; [reflexivity|]. split; [exact Hb|]. intros b z k. cbn [pk_1h pk_2h pk_tot].
    destruct (Hc b z k) as (-> & -> & ->). repeat split; ring.
  - inv_ok H. exists r'. split; [reflexivity|]. split; assumption.
Qed.

Lemma I_NL_S' a S W1 W2 B : I_NL (with_amplitude a S) W1 W2 B = I_NL S W1 W2 B.
Proof. reflexivity. Qed.

Lemma I_NL_scal_l S W1 W2 B c i : I_NL S W1 W2 B = Ok i ->
  I_NL S (fun b z k m => c * W1 b z k m) W2 B = Ok (fun b z k => c * i b z k).
Proof.
  unfold I_NL. intros H. inv_bind H. inv_ok H. cbn [bind]. f_equal.
  do 3 (apply functional_extensionality; intros). apply trap_scal_arg.
Qed.
Lemma I_NL_scal_r S W1 W2 B c i : I_NL S W1 W2 B = Ok i ->
  I_NL S W1 (fun b z k m => c * W2 b z k m) B = Ok (fun b z k => c * i b z k).
Proof.
  unfold I_NL. intros H. inv_bind H. inv_ok H. cbn [bind]. f_equal.
  do 3 (apply functional_extensionality; intros). apply trap_scal_arg_r.
Qed.

Ltac same_inputs a S :=
  change (s_mode (with_amplitude a S)) with (s_mode S) in *;
  change (pk_lin (with_amplitude a S)) with (pk_lin S) in *;
  change (beta_nl (with_amplitude a S)) with (beta_nl S) in *;
  change (peff_arr (with_amplitude a S)) with (peff_arr S) in *;
  change (profile_xm (with_amplitude a S)) with (profile_xm S) in *;
  change (matter_profile_2h (with_amplitude a S)) with (matter_profile_2h S) in *;
  change (cen_profile (with_amplitude a S)) with (cen_profile S) in *;
  change (Im_term (with_amplitude a S)) with (Im_term S) in *;
  change (Ic_term (with_amplitude a S)) with (Ic_term S) in *;
  change (sF_c (with_amplitude a S)) with (sF_c S) in *;
  change (t1i (with_amplitude a S)) with (t1i S) in *;
  change (t2i (with_amplitude a S)) with (t2i S) in *;
  change (one_halo (with_amplitude a S)) with (one_halo S) in *;
  change (I_NL (with_amplitude a S)) with (I_NL S) in *;
  rewrite ?cen_align_scal, ?sat_align_scal, ?gal_align_scal.

Ltac push_scale :=
  repeat match goal with |- context [Ic_align (with_amplitude ?a ?S) ?b ?z ?k] => rewrite (Ic_align_scal a S b z k) end;
  repeat match goal with |- context [Is_align (with_amplitude ?a ?S) ?b ?z ?k] => rewrite (Is_align_scal a S b z k) end;
  rewrite ?one_halo_scal_r.

Lemma amp_2h_scal a S z : amp_2h (with_amplitude a S) z = a * amp_2h S z.
Proof.
  change (amp_2h (with_amplitude a S) z) with
    (- 1 * (5 / 100000000000000 * (a * s_gi S z) * s_rho S z / s_growth S z)).
  unfold amp_2h, C1, Rdiv. ring.
Qed.
Lemma amp_2h_II_scal a S z : amp_2h_II (with_amplitude a S) z = a ^ 2 * amp_2h_II S z.
Proof.
  change (amp_2h_II (with_amplitude a S) z) with
    ((5 / 100000000000000 * (a * s_gi S z) * s_rho S z / s_growth S z) ^ 2).
  unfold amp_2h_II, C1, Rdiv. ring.
Qed.

Lemma mi_scal a S r : power_spectrum_mi S = Ok r ->
  exists r', power_spectrum_mi (with_amplitude a S) = Ok r' /\ multiple_of a r r'.
Proof.
  unfold power_spectrum_mi. same_inputs a S. cbv zeta. intros H.
  destruct (s_mode S); repeat (inv_bind H; cbn [bind]).
  - rewrite (I_NL_scal_l _ _ _ _ a _ E1). cbn [bind].
    eapply respond_scaled; [|exact H]. split; [reflexivity|]. intros b z k. cbn [pk_1h pk_2h pk_tot].
    push_scale. repeat split; ring.
  - eapply respond_scaled; [|exact H]. split; [reflexivity|]. intros b z k. cbn [pk_1h pk_2h pk_tot].
    push_scale. repeat split; ring.
  - eapply respond_scaled; [|exact H]. split; [reflexivity|]. intros b z k. cbn [pk_1h pk_2h pk_tot].
    push_scale. rewrite amp_2h_scal. repeat split; ring.
  - eapply respond_scaled; [|exact H]. split; [reflexivity|]. intros b z k. cbn [pk_1h pk_2h pk_tot].
    push_scale. repeat split; ring.
Qed.

Lemma gi_scal a S r : power_spectrum_gi S = Ok r ->
  exists r', power_spectrum_gi (with_amplitude a S) = Ok r' /\ multiple_of a r r'.
Proof.
  unfold power_spectrum_gi. same_inputs a S. cbv zeta. intros H.
  destruct (s_mode S); repeat (inv_bind H; cbn [bind]).
  - rewrite (I_NL_scal_l _ _ _ _ a _ E1), (I_NL_scal_l _ _ _ _ a _ E2). cbn [bind].
    eapply respond_scaled; [|exact H]. split; [reflexivity|]. intros b z k. cbn [pk_1h pk_2h pk_tot].
    push_scale. repeat split; ring.
  - eapply respond_scaled; [|exact H]. split; [reflexivity|]. intros b z k. cbn [pk_1h pk_2h pk_tot].
    push_scale. repeat split; ring.
  - eapply respond_scaled; [|exact H]. split; [reflexivity|]. intros b z k. cbn [pk_1h pk_2h pk_tot].
    push_scale. rewrite amp_2h_scal. repeat split; ring.
  - eapply respond_scaled; [|exact H]. split; [reflexivity|]. intros b z k. cbn [pk_1h pk_2h pk_tot].
    push_scale. repeat split; ring.
Qed.

Lemma one_halo_scal_2 S u v a b z k :
  one_halo S (fun b z k m => a * u b z k m) (fun b z k m => a * v b z k m) b z k = a ^ 2 * one_halo S u v b z k.
Proof. rewrite one_halo_scal_r, one_halo_sym, one_halo_scal_r, one_halo_sym. ring. Qed.

Lemma ii_scal a S r : power_spectrum_ii S = Ok r ->
  exists r', power_spectrum_ii (with_amplitude a S) = Ok r' /\ multiple_of (a ^ 2) r r'.
Proof.
  unfold power_spectrum_ii. same_inputs a S. cbv zeta. intros H.
  destruct (s_mode S); repeat (inv_bind H; cbn [bind]).
  - rewrite (I_NL_scal_r _ _ _ _ a _ (I_NL_scal_l _ _ _ _ a _ E1)),
      (I_NL_scal_r _ _ _ _ a _ (I_NL_scal_l _ _ _ _ a _ E2)),
      (I_NL_scal_r _ _ _ _ a _ (I_NL_scal_l _ _ _ _ a _ E3)). cbn [bind].
    eapply respond_scaled; [|exact H]. split; [reflexivity|]. intros b z k. cbn [pk_1h pk_2h pk_tot].
    rewrite one_halo_scal_2. push_scale. repeat split; ring.
  - eapply respond_scaled; [|exact H]. split; [reflexivity|]. intros b z k. cbn [pk_1h pk_2h pk_tot].
    rewrite one_halo_scal_2. push_scale. repeat split; ring.
  - eapply respond_scaled; [|exact H]. split; [reflexivity|]. intros b z k. cbn [pk_1h pk_2h pk_tot].
    rewrite one_halo_scal_2. push_scale. rewrite amp_2h_II_scal. repeat split; ring.
  - eapply respond_scaled; [|exact H]. split; [reflexivity|]. intros b z k. cbn [pk_1h pk_2h pk_tot].
    rewrite one_halo_scal_2. push_scale. repeat split; ring.
Qed.

(** ** Intrinsic-intrinsic two-halo term *)
Lemma ii_form S r : (s_mode S = NoNl \/ s_mode S = Hmcode) -> s_response S = false ->
  power_spectrum_ii S = Ok r ->
  exists pl, pk_lin S = Ok pl /\
  (forall b z k, pk_2h r b z k = pl z k * ((Ic_align S b z k) ^ 2 + (Is_align S b z k) ^ 2
                   + Ic_align S b z k * Is_align S b z k) * t2i S k) /\
  (forall b z k, pk_1h r b z k = one_halo S (sat_align S) (sat_align S) b z k * t1i S k).
Proof.
  intros Hm Hr H. unfold power_spectrum_ii in H. cbv zeta in H.
  destruct Hm as [Hm|Hm]; rewrite Hm in H; inv_bind H;
    apply (respond_off _ _ _ Hr) in H; subst r; exists a; (split; [reflexivity|]); split; intros;
    cbn [pk_2h pk_1h]; ring.
Qed.

Lemma gi_form S r : (s_mode S = NoNl \/ s_mode S = Hmcode) -> s_response S = false ->
  power_spectrum_gi S = Ok r ->
  exists pl, pk_lin S = Ok pl /\
  (forall b z k, pk_2h r b z k = pl z k * Ic_term S b z k * (Ic_align S b z k + Is_align S b z k) * t2i S k) /\
  (forall b z k, pk_1h r b z k = one_halo S (cen_profile S) (sat_align S) b z k * t1i S k).
Proof.
  intros Hm Hr H. unfold power_spectrum_gi in H. cbv zeta in H.
  destruct Hm as [Hm|Hm]; rewrite Hm in H; inv_bind H;
    apply (respond_off _ _ _ Hr) in H; subst r; exists a; (split; [reflexivity|]); split; intros;
    cbn [pk_2h pk_1h]; ring.
Qed.

Lemma ii_fortuna S r : s_mode S = Fortuna -> s_response S = false -> power_spectrum_ii S = Ok r ->
  exists pe, peff_arr S = Ok pe /\
  (forall b z k, pk_2h r b z k = (sF_c S b z) ^ 2 * pe z k * amp_2h_II S z * t2i S k) /\
  (forall b z k, pk_1h r b z k = one_halo S (sat_align S) (sat_align S) b z k * t1i S k).
Proof.
  intros Hm Hr H. unfold power_spectrum_ii in H. rewrite Hm in H. cbv zeta in H. inv_bind H.
  apply (respond_off _ _ _ Hr) in H. subst r. exists a. split; [reflexivity|]. split; reflexivity.
Qed.

Lemma gi_fortuna S r : s_mode S = Fortuna -> s_response S = false -> power_spectrum_gi S = Ok r ->
  exists pe, peff_arr S = Ok pe /\
  (forall b z k, pk_2h r b z k = - (pe z k * Ic_term S b z k * amp_2h S z * t2i S k)) /\
  (forall b z k, pk_1h r b z k = one_halo S (cen_profile S) (sat_align S) b z k * t1i S k).
Proof.
  intros Hm Hr H. unfold power_spectrum_gi in H. rewrite Hm in H. cbv zeta in H. inv_bind H.
  apply (respond_off _ _ _ Hr) in H. subst r. exists a. split; [reflexivity|]. split; intros;
    cbn [pk_2h pk_1h]; ring.
Qed.

(** ** Response *)
Ltac at_resp v S :=
  change (pk_lin (with_response v S)) with (pk_lin S) in *; change (s_mode (with_response v S)) with (s_mode S) in *;
  change (s_poisson (with_response v S)) with (s_poisson S) in *; change (s_mass (with_response v S)) with (s_mass S) in *;
  change (beta_nl (with_response v S)) with (beta_nl S) in *; change (I_NL (with_response v S)) with (I_NL S) in *;
  change (gal_profile (with_response v S)) with (gal_profile S) in *;
  change (matter_profile_2h (with_response v S)) with (matter_profile_2h S) in *;
  change (gal_align (with_response v S)) with (gal_align S) in *; change (sat_align (with_response v S)) with (sat_align S) in *;
  change (cen_align (with_response v S)) with (cen_align S) in *; change (cen_profile (with_response v S)) with (cen_profile S) in *;
  change (sat_profile (with_response v S)) with (sat_profile S) in *; change (profile_xm (with_response v S)) with (profile_xm S) in *;
  change (one_halo (with_response v S)) with (one_halo S) in *; change (Ic_term (with_response v S)) with (Ic_term S) in *;
  change (Is_term (with_response v S)) with (Is_term S) in *; change (Im_term (with_response v S)) with (Im_term S) in *;
  change (Ic_align (with_response v S)) with (Ic_align S) in *; change (Is_align (with_response v S)) with (Is_align S) in *;
  change (sF_c (with_response v S)) with (sF_c S) in *; change (amp_2h (with_response v S)) with (amp_2h S) in *;
  change (amp_2h_II (with_response v S)) with (amp_2h_II S) in *;
  change (t1 (with_response v S)) with (t1 S) in *; change (t2 (with_response v S)) with (t2 S) in *;
  change (t1i (with_response v S)) with (t1i S) in *; change (t2i (with_response v S)) with (t2i S) in *.

Lemma raw_response v S : power_spectrum_mm_raw (with_response v S) = power_spectrum_mm_raw S.
Proof.
  unfold power_spectrum_mm_raw. at_resp v S.
  change (profile_mm (with_response v S)) with (profile_mm S). reflexivity.
Qed.

Lemma response_scaled x S r : power_spectrum x (with_response true S) = Ok r ->
  exists r0 mm nl, power_spectrum x (with_response false S) = Ok r0 /\
    power_spectrum_mm (with_response false S) = Ok mm /\ power_spectrum_mm (with_response true S) = Ok nl /\
    pk_bias r = pk_bias r0 /\
    forall b z k, pk_1h r b z k = pk_1h r0 b z k * (pk_tot nl b z k / pk_tot mm b z k) /\
                  pk_2h r b z k = pk_2h r0 b z k * (pk_tot nl b z k / pk_tot mm b z k) /\
                  pk_tot r b z k = pk_tot r0 b z k * (pk_tot nl b z k / pk_tot mm b z k).
Proof.
  assert (Key : forall r0 r, respond (with_response true S) r0 = Ok r ->
    exists mm nl, power_spectrum_mm (with_response false S) = Ok mm /\
      power_spectrum_mm (with_response true S) = Ok nl /\ pk_bias r = pk_bias r0 /\
      forall b z k, pk_1h r b z k = pk_1h r0 b z k * (pk_tot nl b z k / pk_tot mm b z k) /\
                  pk_2h r b z k = pk_2h r0 b z k * (pk_tot nl b z k / pk_tot mm b z k) /\
                  pk_tot r b z k = pk_tot r0 b z k * (pk_tot nl b z k / pk_tot mm b z k)).
  { intros r0 r1 H. destruct (respond_inv _ _ _ H) as [[E _]|[_ (pn & mm & E1 & E2 & ->)]]; [discriminate|].
    exists mm. unfold power_spectrum_mm. rewrite raw_response in *. cbn [s_response with_response].
    rewrite E1. cbn [bind].
    eexists. split; [exact E2|]. split; [reflexivity|]. split; [reflexivity|].
    intros b z k. cbn [pk_1h pk_2h pk_tot]. auto. }
  assert (Hpe : s_mode S = Fortuna -> peff_arr (with_response false S) = peff_arr (with_response true S)).
  { intros Em. unfold peff_arr, peff, pk_nl.
    change (s_mode (with_response false S)) with (s_mode S). change (s_mode (with_response true S)) with (s_mode S).
    rewrite Em. reflexivity. }
  assert (Off : forall r0, respond (with_response false S) r0 = Ok r0) by reflexivity.
  intros H.
  assert (G : exists r0, power_spectrum x (with_response false S) = Ok r0 /\ respond (with_response true S) r0 = Ok r).
  { destruct x; cbn [power_spectrum] in H |- *;
      unfold power_spectrum_gg, power_spectrum_gm, power_spectrum_mi, power_spectrum_ii, power_spectrum_gi in *;
      cbv zeta in *; at_resp true S; at_resp false S.
    1, 2: repeat (inv_bind H; cbn [bind]); rewrite Off; eexists; (split; [reflexivity|exact H]).
    all: destruct (s_mode S) eqn:Em; rewrite ?(Hpe eq_refl);
      repeat (inv_bind H; cbn [bind]); rewrite Off; eexists; (split; [reflexivity|exact H]). }
  destruct G as (r0 & G1 & G2). destruct (Key _ _ G2) as (mm & nl & K). exists r0, mm, nl.
  split; [exact G1|]. exact K.
Qed.
