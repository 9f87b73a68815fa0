(** Mean halo mass, beta_nl in the spectra, shapes of supplied arrays. *)
From Coquelicot Require Import Coquelicot.
From Verif Require Import Base Spec Quad Interp HodModel HodSpec Dewiggle PkModel PkSpec BaseFacts QuadFacts
  InterpFacts NumFacts HodFacts HodFacts2 PkFacts PkFacts2 PkFacts3 PkFacts4 PkFacts5.
Open Scope R_scope.

(** ** Mean halo mass *)
Lemma mean_mass_le c md b j : valid_z c -> valid_mass c -> valid_hmf c ->
  (b < zbins (c_set c))%nat -> (j < nz (c_set c))%nat ->
  nonneg_occ c (compute_hod_cen c md) b -> nonneg_occ c (compute_hod_sat c md) b ->
  0 <= mass_avg_cen c md b j <= c_mass c (c_nm c - 1) * ntot c md b j.
Proof.
  intros Hz Hm Hh Hb Hj Nc Ns. pose proof Hm as (Hn & r & Hr & G).
  pose proof (mass_incr c Hm) as Hinc.
  assert (Hlast : forall m, (m < c_nm c)%nat -> c_mass c m <= c_mass c (c_nm c - 1)).
  { intros m Hlt. destruct (Nat.eq_dec m (c_nm c - 1)) as [->|Hne]; [lra|].
    left. apply (incr_lt (c_nm c)); [exact Hinc|lia|lia]. }
  unfold mass_avg_cen, mean_mass_integral, ntot, mass_integral. split.
  - apply (simpson_nonneg (c_nm c) r); try assumption; try lra. intros m Hlt.
    pose proof (dndlnm_int_nonneg c b j m Hz Hh Hb Hj Hlt). pose proof (Nc j m Hj Hlt).
    apply Rmult_le_pos; assumption.
  - rewrite <- simpson_scal. apply (simpson_le (c_nm c) r); try assumption; try lra. intros m Hlt.
    pose proof (dndlnm_int_nonneg c b j m Hz Hh Hb Hj Hlt). pose proof (Nc j m Hj Hlt).
    pose proof (Ns j m Hj Hlt). pose proof (mass_pos c m Hm Hlt). pose proof (Hlast m Hlt).
    unfold compute_hod.
    set (N := compute_hod_cen c md b j m) in *. set (N' := compute_hod_sat c md b j m) in *.
    set (d := dndlnm_int c b j m) in *. set (x := c_mass c m) in *. set (X := c_mass c (c_nm c - 1)) in *.
    replace (N * d) with (x * (N * d / x)) by (field; lra).
    assert (0 <= N * d / x) by (apply div_nonneg; [apply Rmult_le_pos; assumption|lra]).
    assert (0 <= N' * d / x) by (apply div_nonneg; [apply Rmult_le_pos; assumption|lra]).
    replace ((N + N') * d / x) with (N * d / x + N' * d / x) by (field; lra). nra.
Qed.

Lemma mass_avg_range S b z : valid_z (hctx S) -> valid_mass (hctx S) -> valid_hmf (hctx S) ->
  (b < zbins (s_hod_set S))%nat -> in_range (hctx S) b z -> valid_hod (hctx S) (s_hod S) b ->
  0 < n_gal S b z -> 0 <= mass_avg S b z <= s_mass S (s_nm S - 1).
Proof.
  intros Hz Hm Hh Hb Hr Hv Hn. destruct (valid_hod_nonneg (hctx S) (s_hod S) b Hm Hv) as [Nc Ns].
  pose proof Hz as (H2 & Hi & _). destruct Hr as [R0 R1].
  unfold mass_avg, n_gal in *. set (c := hctx S) in *. set (md := s_hod S) in *.
  change (s_mass S) with (c_mass c). change (s_nm S) with (c_nm c). set (X := c_mass c (c_nm c - 1)).
  assert (E1 : avg_halo_mass_cen c md b z = interp_lin (nz (c_set c)) (hod_z (c_set c) b) (fun j => mass_avg_cen c md b j) (c_zvec c z)).
  { unfold avg_halo_mass_cen, z_interpolate. rewrite interp1d_inside by assumption. reflexivity. }
  assert (P0 : 0 <= avg_halo_mass_cen c md b z).
  { rewrite E1. apply interp_nonneg; try assumption; [apply Hi, Hb|]. intros j Hj.
    apply (mean_mass_le c md b j); assumption. }
  assert (P1 : 0 <= X * number_density c md b z - avg_halo_mass_cen c md b z).
  { rewrite E1. assert (E2 : number_density c md b z
      = interp_lin (nz (c_set c)) (hod_z (c_set c) b) (fun j => ntot c md b j) (c_zvec c z)) by reflexivity.
    rewrite E2.
    assert (E3 := interp_lincomb (nz (c_set c)) (hod_z (c_set c) b) X (-1) (fun j => ntot c md b j)
      (fun j => mass_avg_cen c md b j) (c_zvec c z)). cbv beta in E3.
    assert (E4 : 0 <= interp_lin (nz (c_set c)) (hod_z (c_set c) b)
      (fun i => X * ntot c md b i + -1 * mass_avg_cen c md b i) (c_zvec c z)).
    { apply interp_nonneg; [exact H2|apply Hi, Hb|exact R0|exact R1|]. intros j Hj.
      destruct (mean_mass_le c md b j Hz Hm Hh Hb Hj Nc Ns) as [_ H]. fold X in H. lra. }
    lra. }
  split.
  - apply div_nonneg; lra.
  - apply Rmult_le_reg_r with (number_density c md b z); [exact Hn|]. unfold Rdiv.
    rewrite Rmult_assoc, Rinv_l by lra. lra.
Qed.

(** At a tabulated redshift mass_avg is f_c times the mean host mass of centrals. *)
Lemma mass_avg_value S b j z Nc Ns n : valid_z (hctx S) -> valid_mass (hctx S) -> (3 <= s_nm S)%nat ->
  sampled (hctx S) (s_hod S) b j z Nc Ns n -> number_density_cen (hctx S) (s_hod S) b z <> 0 ->
  is_parabola (fun M => Nc M * n M * M) -> is_parabola (fun M => Ns M * n M * M) ->
  is_parabola (fun M => Nc M * n M) -> is_parabola (fun M => Ns M * n M) ->
  mass_avg S b z = f_c (hctx S) (s_hod S) b z
                   * (mass_int S (fun M => M * (Nc M * n M)) / mass_int S (fun M => Nc M * n M)).
Proof.
  intros Hz Hm Hn Hs Hg P1 P2 P3 P4. pose proof Hs as (Hb & Hj & Hi & E & _).
  destruct (fractions_ratio (hctx S) (s_hod S) b j z Hz Hb Hj E) as [Fc _].
  destruct (sampled_density _ _ _ _ _ _ _ _ Hz Hm Hn Hs P3 P4) as [Dc _].
  destruct (sampled_mass _ _ _ _ _ _ _ _ Hz Hm Hn Hs P1 P2) as [Mc _].
  unfold mass_avg. rewrite Fc. unfold mass_int.
  change (s_mass S) with (c_mass (hctx S)). change (s_nm S) with (c_nm (hctx S)).
  rewrite <- Dc.
  replace (RInt (fun M => M * (Nc M * n M)) (c_mass (hctx S) 0%nat) (c_mass (hctx S) (c_nm (hctx S) - 1)))
    with (avg_halo_mass_cen (hctx S) (s_hod S) b z).
  2:{ rewrite Mc. apply RInt_ext. intros x _. apply (Rmult_comm (Nc x * n x) x). }
  unfold Rdiv. transitivity (avg_halo_mass_cen (hctx S) (s_hod S) b z * / number_density (hctx S) (s_hod S) b z
    * (number_density_cen (hctx S) (s_hod S) b z * / number_density_cen (hctx S) (s_hod S) b z)); [|ring].
  rewrite Rinv_r by exact Hg. ring.
Qed.

(** ** beta_nl *)
Lemma I_NL_inv S W1 W2 B i : I_NL S W1 W2 B = Ok i ->
  exists w, trap_weights (s_nm S) (s_mass S) = Ok w /\ i = I_NL_w S w W1 W2 (A_term S) (s_rho S) B.
Proof. unfold I_NL. intros H. inv_bind H. inv_ok H. exists a. auto. Qed.

Lemma I_NL_constant S W1 W2 B i c b z k : (forall z k m1 m2, B z k m1 m2 = c) -> I_NL S W1 W2 B = Ok i ->
  i b z k = c * trap_field S W1 b z k * trap_field S W2 b z k.
Proof.
  intros HB H. destruct (I_NL_inv _ _ _ _ _ H) as (w & Ew & ->).
  rewrite (I_NL_const S w (A_term S) (s_rho S) B W1 W2 c b z k HB).
  unfold one_field, trap_field. rewrite !(trap_classical _ _ _ _ Ew). reflexivity.
Qed.

Lemma I_NL_symmetric S W1 W2 B i i' b z k : (forall z k m1 m2, B z k m1 m2 = B z k m2 m1) ->
  I_NL S W1 W2 B = Ok i -> I_NL S W2 W1 B = Ok i' -> i b z k = i' b z k.
Proof.
  intros HB H H'. destruct (I_NL_inv _ _ _ _ _ H) as (w & Ew & ->).
  destruct (I_NL_inv _ _ _ _ _ H') as (w' & Ew' & ->). rewrite Ew in Ew'. injection Ew' as <-.
  apply I_NL_sym, HB.
Qed.

Lemma I_NL_bilinear S U V W B x y iu iv i ju jv j b z k :
  I_NL S U W B = Ok iu -> I_NL S V W B = Ok iv ->
  I_NL S (fun b z k m => x * U b z k m + y * V b z k m) W B = Ok i ->
  I_NL S W U B = Ok ju -> I_NL S W V B = Ok jv ->
  I_NL S W (fun b z k m => x * U b z k m + y * V b z k m) B = Ok j ->
  i b z k = x * iu b z k + y * iv b z k /\ j b z k = x * ju b z k + y * jv b z k.
Proof.
  unfold I_NL. intros H1 H2 H3 H4 H5 H6. destruct (trap_weights (s_nm S) (s_mass S)) as [w|]; [|discriminate].
  cbn [bind] in *. inv_ok H1. inv_ok H2. inv_ok H3. inv_ok H4. inv_ok H5. inv_ok H6.
  split; [apply I_NL_lin_l|apply I_NL_lin_r].
Qed.

(** Two-halo terms in bnl mode: linear part without truncation, plus the correction. *)
Lemma mm_bnl S r : s_mode S = Bnl -> s_response S = false -> power_spectrum_mm S = Ok r ->
  exists pl B i, pk_lin S = Ok pl /\ beta_nl S = Ok B /\ I_NL S (matter_profile S) (matter_profile S) B = Ok i /\
  forall b z k, pk_2h r b z k = pl z k * ((Im_term S z k) ^ 2 + i b z k).
Proof.
  intros Hm Hr H. unfold power_spectrum_mm in H. rewrite Hr in H. unfold power_spectrum_mm_raw in H.
  inv_bind H. rewrite Hm in H. inv_bind H. inv_bind H. inv_ok H.
  exists a, a0, a1. repeat split; try assumption; try reflexivity. intros; cbn [pk_2h]. ring.
Qed.

Lemma gg_bnl S r : s_mode S = Bnl -> s_response S = false -> power_spectrum_gg S = Ok r ->
  exists pl B i, pk_lin S = Ok pl /\ beta_nl S = Ok B /\ I_NL S (gal_profile S) (gal_profile S) B = Ok i /\
  forall b z k, pk_2h r b z k = pl z k * ((Ic_term S b z k + Is_term S b z k) ^ 2 + i b z k).
Proof.
  intros Hm Hr H. unfold power_spectrum_gg in H. rewrite Hm in H. cbn [is_bnl] in H.
  inv_bind H. inv_bind H. destruct (beta_nl S) as [B|] eqn:EB; cbn [bind] in H; [|discriminate]. inv_bind H.
  apply (respond_off _ _ _ Hr) in H. subst r.
  exists a, B, a1. repeat split; try assumption; try reflexivity. intros; cbn [pk_2h]. ring.
Qed.

Lemma gm_bnl S r : s_mode S = Bnl -> s_response S = false -> power_spectrum_gm S = Ok r ->
  exists pl B i, pk_lin S = Ok pl /\ beta_nl S = Ok B /\ I_NL S (gal_profile S) (matter_profile S) B = Ok i /\
  forall b z k, pk_2h r b z k = pl z k * ((Ic_term S b z k + Is_term S b z k) * Im_term S z k + i b z k).
Proof.
  intros Hm Hr H. unfold power_spectrum_gm in H. rewrite Hm in H. cbn [is_bnl] in H.
  inv_bind H. destruct (beta_nl S) as [B|] eqn:EB; cbn [bind] in H; [|discriminate]. inv_bind H.
  apply (respond_off _ _ _ Hr) in H. subst r.
  exists a, B, a0. repeat split; try assumption; try reflexivity. intros; cbn [pk_2h]. ring.
Qed.

Lemma mi_bnl S r : s_mode S = Bnl -> s_response S = false -> power_spectrum_mi S = Ok r ->
  exists pl B i, pk_lin S = Ok pl /\ beta_nl S = Ok B /\ I_NL S (gal_align S) (matter_profile S) B = Ok i /\
  forall b z k, pk_2h r b z k
    = - (pl z k * ((Ic_align S b z k + Is_align S b z k) * Im_term S z k + i b z k)).
Proof.
  intros Hm Hr H. unfold power_spectrum_mi in H. rewrite Hm in H. cbv zeta in H. do 3 inv_bind H.
  apply (respond_off _ _ _ Hr) in H. subst r.
  exists a, a0, a1. repeat split; try assumption; try reflexivity. intros; cbn [pk_2h]. ring.
Qed.

Lemma ii_bnl S r : s_mode S = Bnl -> s_response S = false -> power_spectrum_ii S = Ok r ->
  exists pl B is ic ics, pk_lin S = Ok pl /\ beta_nl S = Ok B /\
  I_NL S (sat_align S) (sat_align S) B = Ok is /\ I_NL S (cen_align S) (cen_align S) B = Ok ic /\
  I_NL S (cen_align S) (sat_align S) B = Ok ics /\
  forall b z k, pk_2h r b z k
    = pl z k * ((Ic_align S b z k) ^ 2 + ic b z k + ((Is_align S b z k) ^ 2 + is b z k)
                + (Ic_align S b z k * Is_align S b z k + ics b z k)).
Proof.
  intros Hm Hr H. unfold power_spectrum_ii in H. rewrite Hm in H. cbv zeta in H. do 5 inv_bind H.
  apply (respond_off _ _ _ Hr) in H. subst r.
  exists a, a0, a1, a2, a3. repeat split; try assumption; try reflexivity. intros; cbn [pk_2h]. ring.
Qed.

Lemma gi_bnl S r : s_mode S = Bnl -> s_response S = false -> power_spectrum_gi S = Ok r ->
  exists pl B ic ics, pk_lin S = Ok pl /\ beta_nl S = Ok B /\
  I_NL S (cen_align S) (cen_profile S) B = Ok ic /\ I_NL S (sat_align S) (cen_profile S) B = Ok ics /\
  forall b z k, pk_2h r b z k
    = pl z k * (Ic_term S b z k * (Ic_align S b z k + Is_align S b z k) + (ic b z k + ics b z k)).
Proof.
  intros Hm Hr H. unfold power_spectrum_gi in H. rewrite Hm in H. cbv zeta in H. do 4 inv_bind H.
  apply (respond_off _ _ _ Hr) in H. subst r.
  exists a, a0, a1, a2. repeat split; try assumption; try reflexivity. intros; cbn [pk_2h]. ring.
Qed.

Lemma trap_field_plus S U V b z k :
  trap_field S (fun b z k m => U b z k m + V b z k m) b z k = trap_field S U b z k + trap_field S V b z k.
Proof.
  unfold trap_field.
  assert (E : forall n, trapezoid n (fun m => s_bias S z m * s_dndlnm S z m / s_mass S m * (U b z k m + V b z k m)) (s_mass S)
    = trapezoid n (fun m => s_bias S z m * s_dndlnm S z m / s_mass S m * U b z k m) (s_mass S)
      + trapezoid n (fun m => s_bias S z m * s_dndlnm S z m / s_mass S m * V b z k m) (s_mass S)).
  { induction n as [|n IH]; simpl; [ring|]. rewrite IH. unfold Rdiv. ring. }
  rewrite E. unfold Rdiv. ring.
Qed.

(** ** Shapes *)
Lemma shape_test S a (x : A2) : (if Nat.eqb (a_rows a) (s_nz S) && Nat.eqb (a_cols a) (s_nk S)
    then Ok (a_val a) else Err "ValueError") = Ok x -> fits S a.
Proof.
  destruct (Nat.eqb_spec (a_rows a) (s_nz S)); destruct (Nat.eqb_spec (a_cols a) (s_nk S)); simpl; intros H;
    try discriminate. split; assumption.
Qed.

Lemma lin_shape S a : s_plin S = Some a -> is_hmcode (s_mode S) = false -> s_dewiggle S = false ->
  (fits S a -> pk_lin S = Ok (a_val a)) /\ (~ fits S a -> pk_lin S = Err "ValueError").
Proof.
  intros Hp Hm Hd. unfold pk_lin, raw_plin. rewrite Hp, Hm, Hd. cbn [orb bind]. unfold fits.
  destruct (Nat.eqb_spec (a_rows a) (s_nz S)); destruct (Nat.eqb_spec (a_cols a) (s_nk S)); simpl; tauto.
Qed.

Lemma lin_shape_dewiggled S a : s_plin S = Some a -> is_hmcode (s_mode S) = true \/ s_dewiggle S = true ->
  (2 <= s_nk S)%nat ->
  ((exists p, pk_lin S = Ok p) <-> (a_rows a = s_nz S /\ (a_cols a = s_nk S \/ a_cols a = 1%nat))) /\
  ((exists p, pk_lin S = Ok p) \/ pk_lin S = Err "ValueError").
Proof.
  intros Hp Hd Hk. unfold pk_lin, raw_plin, dewiggled. rewrite Hp.
  replace (is_hmcode (s_mode S) || s_dewiggle S) with true
    by (destruct Hd as [-> | ->]; destruct (is_hmcode (s_mode S)); reflexivity).
  rewrite guard_passes by exact Hk. cbn [bind]. unfold bcast.
  destruct (Nat.eqb_spec (a_cols a) (s_nk S)) as [E|E].
  - cbn [bind a_rows a_cols]. rewrite E, Nat.eqb_refl.
    destruct (Nat.eqb_spec (a_rows a) (s_nz S)); simpl; split; try (right; reflexivity); try (left; eexists; reflexivity);
      split; intros H; [split; [assumption|left; reflexivity]|eexists; reflexivity|destruct H as [p H]; discriminate|tauto].
  - destruct (Nat.eqb_spec (a_cols a) 1) as [E1|E1].
    + cbn [bind a_rows a_cols]. rewrite Nat.eqb_refl.
      destruct (Nat.eqb_spec (a_rows a) (s_nz S)); simpl; split; try (right; reflexivity); try (left; eexists; reflexivity);
      split; intros H; [split; [assumption|right; assumption]|eexists; reflexivity|destruct H as [p H]; discriminate|tauto].
    + destruct (Nat.eqb_spec (s_nk S) 1) as [E2|E2]; [lia|]. cbn [bind].
      split; [|right; reflexivity]. split; [intros [p H]; discriminate|tauto].
Qed.

Lemma nl_shape S a : s_pnl S = Some a -> is_fortuna (s_mode S) = true \/ s_response S = true ->
  (fits S a -> pk_nl S = Ok (Some (a_val a))) /\ (~ fits S a -> pk_nl S = Err "ValueError").
Proof.
  intros Hp Hm. unfold pk_nl. rewrite Hp.
  replace (is_fortuna (s_mode S) || s_response S) with true
    by (destruct Hm as [-> | ->]; destruct (is_fortuna (s_mode S)); reflexivity).
  unfold fits.
  destruct (Nat.eqb_spec (a_rows a) (s_nz S)); destruct (Nat.eqb_spec (a_cols a) (s_nk S)); simpl; tauto.
Qed.

Lemma respond_needs_nl S r r' : s_response S = true -> respond S r = Ok r' -> exists pn, pk_nl S = Ok (Some pn).
Proof.
  intros Hr H. destruct (respond_inv _ _ _ H) as [[E _]|[_ (pn & _ & E & _)]]; [congruence|]. exists pn. exact E.
Qed.

(** Every galaxy and alignment spectrum evaluates the linear power; so does mm without response. *)
Lemma needs_lin x S r : power_spectrum x S = Ok r -> exists pl, pk_lin S = Ok pl.
Proof.
  assert (F : forall pe, peff_arr S = Ok pe -> exists pl, pk_lin S = Ok pl).
  { intros pe H. unfold peff_arr, peff in H. destruct (is_fortuna (s_mode S)); [|discriminate].
    destruct (pk_lin S) as [pl|]; [exists pl; reflexivity|discriminate]. }
  destruct x; simpl; unfold power_spectrum_gg, power_spectrum_gm, power_spectrum_mi, power_spectrum_ii, power_spectrum_gi;
    cbv zeta; intros H; try (destruct (pk_lin S) as [pl|]; [exists pl; reflexivity|discriminate]);
    destruct (s_mode S); try (destruct (pk_lin S) as [pl|]; [exists pl; reflexivity|discriminate]);
    destruct (peff_arr S) as [pe|] eqn:E; try discriminate; apply (F pe eq_refl).
Qed.

Lemma mm_needs_lin S r : s_response S = false -> power_spectrum_mm S = Ok r -> exists pl, pk_lin S = Ok pl.
Proof.
  intros Hr H. unfold power_spectrum_mm in H. rewrite Hr in H. unfold power_spectrum_mm_raw in H.
  destruct (pk_lin S) as [pl|]; [exists pl; reflexivity|discriminate].
Qed.

Lemma response_needs_nl x S r : s_response S = true -> power_spectrum x S = Ok r ->
  exists pn, pk_nl S = Ok (Some pn).
Proof.
  intros Hr. destruct x; simpl; unfold power_spectrum_gg, power_spectrum_gm, power_spectrum_mi, power_spectrum_ii, power_spectrum_gi;
    cbv zeta; intros H; try destruct (s_mode S); repeat inv_bind H; apply (respond_needs_nl _ _ _ Hr H).
Qed.

Lemma fortuna_needs_nl x S r : s_mode S = Fortuna -> x = MI \/ x = II \/ x = GI -> power_spectrum x S = Ok r ->
  exists pn, pk_nl S = Ok (Some pn).
Proof.
  intros Hm Hx H.
  assert (F : forall pe, peff_arr S = Ok pe -> exists pn, pk_nl S = Ok (Some pn)).
  { intros pe E. destruct (peff_form S pe Hm E) as (pl & pn & _ & En & _). exists pn. exact En. }
  destruct Hx as [->|[->| ->]]; simpl in H; unfold power_spectrum_mi, power_spectrum_ii, power_spectrum_gi in H;
    rewrite Hm in H; cbv zeta in H; destruct (peff_arr S) as [pe|] eqn:E; try discriminate; apply (F pe eq_refl).
Qed.

(** ** Effective power *)
Lemma peff_value S pe : peff S = Ok (Some pe) ->
  exists pl pn, s_mode S = Fortuna /\ pk_lin S = Ok pl /\ pk_nl S = Ok (Some pn) /\
  forall z k, (s_t_eff S = 0 -> pe z k = pn z k) /\ (s_t_eff S = 1 -> pe z k = pl z k) /\
    (s_t_eff S = 1 / 2 -> pe z k = (pl z k + pn z k) / 2) /\
    (0 <= s_t_eff S <= 1 -> between (pl z k) (pn z k) (pe z k)).
Proof.
  intros H. assert (Hm : s_mode S = Fortuna).
  { unfold peff in H. destruct (s_mode S); try discriminate; reflexivity. }
  destruct (peff_form S pe Hm ltac:(unfold peff_arr; rewrite H; reflexivity)) as (pl & pn & E1 & E2 & F).
  exists pl, pn. split; [exact Hm|]. split; [exact E1|]. split; [exact E2|]. intros z k. rewrite F.
  split; [intros ->; ring|]. split; [intros ->; ring|]. split; [intros ->; field|].
  intros Ht. unfold between, Rmin, Rmax. destruct (Rle_dec (pl z k) (pn z k)); split; nra.
Qed.

Lemma peff_absent S : s_mode S <> Fortuna -> peff S = Ok None.
Proof. intros H. unfold peff. destruct (s_mode S); try reflexivity. congruence. Qed.

(** ** The alignment amplitudes do not enter the matter and galaxy spectra *)
Lemma amplitude_inert a S : power_spectrum_mm (with_amplitude a S) = power_spectrum_mm S /\
  power_spectrum_gg (with_amplitude a S) = power_spectrum_gg S /\
  power_spectrum_gm (with_amplitude a S) = power_spectrum_gm S.
Proof. repeat split; reflexivity. Qed.
