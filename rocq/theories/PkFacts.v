(** Structural facts about the power spectra model. *)
From Coquelicot Require Import Coquelicot.
From Verif Require Import Base Spec Quad Interp HodModel HodSpec Dewiggle PkModel PkSpec BaseFacts QuadFacts
  InterpFacts NumFacts HodFacts HodFacts2.
Open Scope R_scope.

Ltac inv_bind H :=
  match type of H with
  | bind ?x _ = Ok _ => let E := fresh "E" in destruct x eqn:E; cbn [bind] in H; [|discriminate H]
  end.
Ltac inv_ok H := injection H as <-.

Lemma respond_inv S r r' : respond S r = Ok r' ->
  (s_response S = false /\ r' = r) \/
  (s_response S = true /\ exists pn mm, pk_nl S = Ok (Some pn) /\ power_spectrum_mm_raw S = Ok mm /\
    r' = {| pk_1h := fun b z k => pk_1h r b z k * (pn z k / pk_tot mm b z k);
            pk_2h := fun b z k => pk_2h r b z k * (pn z k / pk_tot mm b z k);
            pk_tot := fun b z k => pk_tot r b z k * (pn z k / pk_tot mm b z k); pk_bias := pk_bias r |}).
Proof.
  unfold respond. destruct (s_response S) eqn:E; intros H.
  - right. split; [reflexivity|]. inv_bind H. inv_bind H. destruct a as [pn|]; [|discriminate].
    exists pn, a0. inv_ok H. auto.
  - left. inv_ok H. auto.
Qed.

Lemma respond_off S r r' : s_response S = false -> respond S r = Ok r' -> r' = r.
Proof. intros E H. destruct (respond_inv _ _ _ H) as [[_ ->]|[E' _]]; [reflexivity|congruence]. Qed.

Lemma respond_adds S r r' : respond S r = Ok r' -> adds_up r -> adds_up r'.
Proof.
  intros H Hr b z k. destruct (respond_inv _ _ _ H) as [[_ ->]|[_ (pn & mm & _ & _ & ->)]]; [apply Hr|].
  simpl. rewrite Hr. ring.
Qed.

(** ** Totals *)
Lemma gg_adds S r : power_spectrum_gg S = Ok r -> adds_up r.
Proof.
  unfold power_spectrum_gg. intros H. do 3 inv_bind H. apply (respond_adds _ _ _ H).
  intros b z k; reflexivity.
Qed.

Lemma gm_adds S r : power_spectrum_gm S = Ok r -> adds_up r.
Proof.
  unfold power_spectrum_gm. intros H. do 2 inv_bind H. apply (respond_adds _ _ _ H).
  intros b z k; reflexivity.
Qed.

Lemma mi_adds S r : power_spectrum_mi S = Ok r -> adds_up r.
Proof.
  unfold power_spectrum_mi. intros H. cbv zeta in H.
  destruct (s_mode S); repeat inv_bind H; apply (respond_adds _ _ _ H); intros b z k; simpl; ring.
Qed.

Lemma ii_adds S r : power_spectrum_ii S = Ok r -> adds_up r.
Proof.
  unfold power_spectrum_ii. intros H. cbv zeta in H.
  destruct (s_mode S); repeat inv_bind H; apply (respond_adds _ _ _ H); intros b z k; simpl; ring.
Qed.

Lemma gi_adds S r : power_spectrum_gi S = Ok r -> adds_up r.
Proof.
  unfold power_spectrum_gi. intros H. cbv zeta in H.
  destruct (s_mode S); repeat inv_bind H; apply (respond_adds _ _ _ H); intros b z k; simpl; ring.
Qed.

Lemma five_add x S r : power_spectrum x S = Ok r -> adds_up r.
Proof.
  destruct x; [apply gg_adds|apply gm_adds|apply mi_adds|apply ii_adds|apply gi_adds].
Qed.

Lemma mm_raw_adds S r : s_mode S <> Hmcode -> power_spectrum_mm_raw S = Ok r -> adds_up r.
Proof.
  intros Hm H. unfold power_spectrum_mm_raw in H. inv_bind H.
  destruct (s_mode S); try congruence; repeat inv_bind H; inv_ok H; intros b z k; simpl; ring.
Qed.

Lemma mm_adds S r : s_mode S <> Hmcode -> s_response S = false -> power_spectrum_mm S = Ok r -> adds_up r.
Proof.
  intros Hm Hr H. unfold power_spectrum_mm in H. rewrite Hr in H. apply mm_raw_adds with S; assumption.
Qed.

Lemma mm_response S r : s_response S = true -> power_spectrum_mm S = Ok r ->
  exists pn, pk_nl S = Ok (Some pn) /\ forall b z k,
    pk_1h r b z k = 0 /\ pk_2h r b z k = 0 /\ pk_tot r b z k = pn z k.
Proof.
  intros Hr H. unfold power_spectrum_mm in H. rewrite Hr in H. inv_bind H.
  destruct a as [pn|]; [|discriminate]. inv_ok H. exists pn. split; [reflexivity|]. intros; simpl; auto.
Qed.

(** ** Two-halo galaxy clustering *)
Lemma gg_form S r : is_bnl (s_mode S) = false -> s_response S = false -> power_spectrum_gg S = Ok r ->
  exists pl po, pk_lin S = Ok pl /\ poisson_func (s_poisson S) (s_mass S) = Ok po /\
  (forall b z k, pk_2h r b z k = pl z k * (Ic_term S b z k + Is_term S b z k) ^ 2 * t2 S k) /\
  (forall b z k, pk_1h r b z k
     = (2 * one_halo S (cen_profile S) (sat_profile S) b z k
        + one_halo S (fun b z k m => sat_profile S b z k m * po m) (sat_profile S) b z k) * t1 S k) /\
  pk_bias r = Some (fun b z k => sqrt (Ic_term S b z k * Ic_term S b z k + Is_term S b z k * Is_term S b z k
                                   + 2 * Ic_term S b z k * Is_term S b z k)).
Proof.
  intros Hb Hr H. unfold power_spectrum_gg in H. rewrite Hb in H. do 2 inv_bind H.
  apply (respond_off _ _ _ Hr) in H. subst r. exists a, a0.
  split; [reflexivity|]. split; [reflexivity|]. split; [|split].
  - intros b z k. cbn [pk_2h]. ring.
  - intros b z k. cbn [pk_1h]. ring.
  - reflexivity.
Qed.

Lemma bias_abs x y : sqrt (x * x + y * y + 2 * x * y) = Rabs (x + y).
Proof.
  replace (x * x + y * y + 2 * x * y) with (Rsqr (x + y)) by (unfold Rsqr; ring).
  apply sqrt_Rsqr_abs.
Qed.

Lemma gg_bias S r : power_spectrum_gg S = Ok r -> exists beta, pk_bias r = Some beta /\
  forall b z k, beta b z k = Rabs (Ic_term S b z k + Is_term S b z k).
Proof.
  intros H. unfold power_spectrum_gg in H. do 3 inv_bind H.
  destruct (respond_inv _ _ _ H) as [[_ ->]|[_ (pn & mm & _ & _ & ->)]]; simpl;
    (eexists; split; [reflexivity|]; intros; apply bias_abs).
Qed.

Lemma gg_bias_squared S r : is_bnl (s_mode S) = false -> s_response S = false ->
  power_spectrum_gg S = Ok r ->
  exists pl beta, power_spectrum_gg S = Ok r /\ pk_lin S = Ok pl /\ pk_bias r = Some beta /\
    forall b z k, 0 <= beta b z k /\ pk_2h r b z k = (beta b z k) ^ 2 * pl z k * t2 S k.
Proof.
  intros Hb Hr H. destruct (gg_form S r Hb Hr H) as (pl & po & Ep & _ & E2 & _).
  destruct (gg_bias S r H) as (beta & Eb & Hbeta).
  exists pl, beta. split; [exact H|]. split; [exact Ep|]. split; [exact Eb|].
  intros b z k. rewrite Hbeta, E2. split; [apply Rabs_pos|].
  rewrite pow2_abs. ring.
Qed.

(** ** Matter *)

Lemma mm_form S r : plain_mode (s_mode S) -> s_response S = false -> power_spectrum_mm S = Ok r ->
  exists pl, pk_lin S = Ok pl /\
  (forall b z k, pk_2h r b z k = pl z k * (Im_term S z k) ^ 2 * t2 S k) /\
  (forall b z k, pk_1h r b z k = one_halo S (profile_mm S) (profile_mm S) b z k * t1 S k).
Proof.
  intros Hm Hr H. unfold power_spectrum_mm in H. rewrite Hr in H.
  unfold power_spectrum_mm_raw in H. inv_bind H. exists a. split; [reflexivity|].
  destruct Hm as [Hm|Hm]; rewrite Hm in H; inv_ok H; split; intros; simpl; ring.
Qed.

Lemma gm_form S r : is_bnl (s_mode S) = false -> s_response S = false -> power_spectrum_gm S = Ok r ->
  exists pl, pk_lin S = Ok pl /\
  (forall b z k, pk_2h r b z k = pl z k * (Ic_term S b z k + Is_term S b z k) * Im_term S z k * t2 S k) /\
  (forall b z k, pk_1h r b z k = (one_halo S (cen_profile S) (profile_xm S) b z k
                                  + one_halo S (sat_profile S) (profile_xm S) b z k) * t1 S k).
Proof.
  intros Hb Hr H. unfold power_spectrum_gm in H. rewrite Hb in H. inv_bind H.
  apply (respond_off _ _ _ Hr) in H. subst r. exists a. split; [reflexivity|]. split; intros.
  - cbn [pk_2h]. ring.
  - cbn [pk_1h]. ring.
Qed.

Lemma plain_not_bnl m : plain_mode m -> is_bnl m = false.
Proof. intros [-> | ->]; reflexivity. Qed.

Lemma two_halo_consistent S rgg rgm rmm : plain_mode (s_mode S) -> s_response S = false ->
  power_spectrum_gg S = Ok rgg -> power_spectrum_gm S = Ok rgm -> power_spectrum_mm S = Ok rmm ->
  forall b z k, (pk_2h rgm b z k) ^ 2 = pk_2h rgg b z k * pk_2h rmm b z k.
Proof.
  intros Hm Hr Hgg Hgm Hmm b z k. pose proof (plain_not_bnl _ Hm) as Hb.
  destruct (gg_form S rgg Hb Hr Hgg) as (p1 & po & E1 & _ & F1 & _).
  destruct (gm_form S rgm Hb Hr Hgm) as (p2 & E2 & F2 & _).
  destruct (mm_form S rmm Hm Hr Hmm) as (p3 & E3 & F3 & _).
  rewrite E1 in E2, E3. injection E2 as <-. injection E3 as <-.
  rewrite F1, F2, F3. ring.
Qed.

(** ** Large scales *)
Lemma Im_unit S z k : (1 <= s_nm S)%nat -> (forall m, (m < s_nm S)%nat -> u_dm S z k m = 1) ->
  Im_term S z k = 1.
Proof.
  intros Hn Hu. unfold Im_term, A_term.
  rewrite (simpson_ext (s_nm S) (fun m => s_bias S z m * s_dndlnm S z m * u_dm S z k m * (1 / s_rho S z))
             (fun m => s_bias S z m * s_dndlnm S z m * (1 / s_rho S z)) (s_mass S) (s_mass S) Hn);
    [ring| |reflexivity].
  intros m Hm. rewrite Hu by exact Hm. ring.
Qed.

Lemma u_first S z m : s_nfw_cen S z 0 m <> 0 -> u_dm S z 0 m = 1.
Proof. intros H. unfold u_dm. field. exact H. Qed.

Lemma mm_large_scale S r z k : plain_mode (s_mode S) -> s_response S = false -> (1 <= s_nm S)%nat ->
  (forall m, (m < s_nm S)%nat -> u_dm S z k m = 1) -> power_spectrum_mm S = Ok r ->
  exists pl, pk_lin S = Ok pl /\ forall b, pk_2h r b z k = pl z k * t2 S k.
Proof.
  intros Hm Hr Hn Hu H. destruct (mm_form S r Hm Hr H) as (pl & E & F & _).
  exists pl. split; [exact E|]. intros b. rewrite F, Im_unit by assumption. ring.
Qed.

Lemma mm_first_k S r z : plain_mode (s_mode S) -> s_response S = false -> (1 <= s_nm S)%nat ->
  (forall m, (m < s_nm S)%nat -> s_nfw_cen S z 0 m <> 0) -> power_spectrum_mm S = Ok r ->
  exists pl, pk_lin S = Ok pl /\ forall b, pk_2h r b z 0%nat = pl z 0%nat * t2 S 0.
Proof.
  intros Hm Hr Hn Hu H. apply mm_large_scale; try assumption. intros m Hlt. apply u_first, Hu, Hlt.
Qed.

(** In bnl mode with beta_nl = 0 the two-halo matter term there is linear power itself. *)

(** ** Alignment integrals *)
Lemma I_align_linear S prof b z k c : positive_background S ->
  (forall m, (m < s_nm S)%nat -> prof b z k m = c * s_mass S m) ->
  I_align S prof b z k = c * s_rho S z.
Proof.
  intros (Hn & Hm & Hrho & _) Hp. unfold I_align, Ig_term.
  rewrite (simpson_ext _ _ (fun m => (c * s_rho S z) * (s_bias S z m * s_dndlnm S z m * (1 / s_rho S z)))
             (s_mass S) (s_mass S) Hn); [|intros m Hlt; rewrite Hp by exact Hlt;
               pose proof (Hm m Hlt); pose proof (Hrho z); field; lra|reflexivity].
  rewrite simpson_scal. rewrite Hp by lia. unfold A_term.
  pose proof (Hm 0%nat ltac:(lia)). field. lra.
Qed.

Lemma Ic_align_value S b z k : positive_background S ->
  Ic_align S b z k = f_c (hctx S) (s_hod S) b z * (5 / 100000000000000 * s_gi S z) * s_rho S z / s_growth S z
                     * mass_scaling S (s_beta_cen S) (s_mpivot_cen S) b z.
Proof.
  intros H. pose proof H as (_ & _ & _ & Hg). unfold Ic_align.
  rewrite (I_align_linear S (cen_align S) b z k
    (sF_c S b z * (C1 S z / s_growth S z) * mass_scaling S (s_beta_cen S) (s_mpivot_cen S) b z) H).
  - unfold sF_c, C1. pose proof (Hg z). field. lra.
  - intros m Hlt. unfold cen_align. ring.
Qed.

Lemma scaling_none S be mp b z : be = None \/ mp = None -> mass_scaling S be mp b z = 1.
Proof. intros [-> | ->]; unfold mass_scaling; [|destruct be]; reflexivity. Qed.

Lemma mi_form S r : s_mode S = NoNl -> s_response S = false -> power_spectrum_mi S = Ok r ->
  exists pl, pk_lin S = Ok pl /\
  (forall b z k, pk_2h r b z k = - (pl z k * (Ic_align S b z k + Is_align S b z k) * Im_term S z k * t2i S k)) /\
  (forall b z k, pk_1h r b z k = - (one_halo S (profile_xm S) (sat_align S) b z k * t1i S k)).
Proof.
  intros Hm Hr H. unfold power_spectrum_mi in H. rewrite Hm in H. cbv zeta in H. inv_bind H.
  apply (respond_off _ _ _ Hr) in H. subst r. exists a. split; [reflexivity|]. split; intros.
  - cbn [pk_2h]. ring.
  - cbn [pk_1h]. ring.
Qed.

Lemma peff_form S pe : s_mode S = Fortuna -> peff_arr S = Ok pe ->
  exists pl pn, pk_lin S = Ok pl /\ pk_nl S = Ok (Some pn) /\
  forall z k, pe z k = (1 - s_t_eff S) * pn z k + s_t_eff S * pl z k.
Proof.
  intros Hm H. unfold peff_arr, peff in H. rewrite Hm in H. cbn [is_fortuna] in H.
  destruct (pk_lin S) as [pl|] eqn:E1; cbn [bind] in H; [|discriminate].
  destruct (pk_nl S) as [o|] eqn:E2; cbn [bind] in H; [|discriminate].
  destruct o as [pn|]; cbn [bind] in H; [|discriminate]. inv_ok H.
  exists pl, pn. auto.
Qed.

Lemma mi_fortuna S r : s_mode S = Fortuna -> s_response S = false -> power_spectrum_mi S = Ok r ->
  exists pe, peff_arr S = Ok pe /\
  (forall b z k, pk_2h r b z k = sF_c S b z * pe z k * amp_2h S z * t2i S k) /\
  (forall b z k, pk_1h r b z k = - (one_halo S (profile_xm S) (sat_align S) b z k * t1i S k)).
Proof.
  intros Hm Hr H. unfold power_spectrum_mi in H. rewrite Hm in H. cbv zeta in H. inv_bind H.
  apply (respond_off _ _ _ Hr) in H. subst r. exists a. split; [reflexivity|]. split; intros.
  - cbn [pk_2h]. ring.
  - cbn [pk_1h]. ring.
Qed.

Lemma Is_align_zero S b z k : positive_background S ->
  (forall m, (m < s_nm S)%nat -> s_wkm S z k m = 0) -> Is_align S b z k = 0.
Proof.
  intros H Hw. unfold Is_align. rewrite (I_align_linear S (sat_align S) b z k 0 H); [ring|].
  intros m Hlt. unfold sat_align. rewrite Hw by exact Hlt. unfold Rdiv. ring.
Qed.

(** The default and the fortuna mode give the same central two-halo term. *)
Lemma mi_modes_agree S r r' b z k : positive_background S -> s_response S = false -> no_mass_scaling S ->
  (forall m, (m < s_nm S)%nat -> u_dm S z k m = 1) -> (forall m, (m < s_nm S)%nat -> s_wkm S z k m = 0) ->
  power_spectrum_mi (with_mode NoNl S) = Ok r ->
  power_spectrum_mi (with_t_eff 1 (with_mode Fortuna S)) = Ok r' ->
  pk_2h r b z k = pk_2h r' b z k.
Proof.
  intros Hp Hr (Hs & _) Hu Hw H H'.
  destruct (mi_form (with_mode NoNl S) r eq_refl Hr H) as (pl & E & F & _).
  destruct (mi_fortuna (with_t_eff 1 (with_mode Fortuna S)) r' eq_refl Hr H') as (pe & E' & F' & _).
  destruct (peff_form (with_t_eff 1 (with_mode Fortuna S)) pe eq_refl E') as (pl' & pn & E1 & E2 & Hpe).
  change (pk_lin (with_t_eff 1 (with_mode Fortuna S))) with (pk_lin (with_mode NoNl S)) in E1.
  rewrite E in E1. injection E1 as <-.
  rewrite F, F', Hpe.
  rewrite (Ic_align_value (with_mode NoNl S)) by exact Hp.
  rewrite (Is_align_zero (with_mode NoNl S)) by (try exact Hp; exact Hw).
  rewrite (Im_unit (with_mode NoNl S)) by (try apply Hp; exact Hu).
  rewrite scaling_none by exact Hs.
  cbn [s_t_eff with_t_eff]. unfold amp_2h, C1, sF_c.
  cbn [s_gi s_rho s_growth with_t_eff with_mode s_hod].
  change (hctx (with_t_eff 1 (with_mode Fortuna S))) with (hctx S).
  change (hctx (with_mode NoNl S)) with (hctx S).
  change (t2i (with_t_eff 1 (with_mode Fortuna S)) k) with (t2i S k).
  change (t2i (with_mode NoNl S) k) with (t2i S k).
  destruct Hp as (_ & _ & _ & Hg). pose proof (Hg z). field. lra.
Qed.
