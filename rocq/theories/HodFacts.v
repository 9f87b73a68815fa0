(** Lemmas behind the HOD properties. *)
From Coquelicot Require Import Coquelicot.
From Verif Require Import Base Spec Quad Interp Erf HodModel HodSpec BaseFacts QuadFacts InterpFacts ErfFacts NumFacts.
Open Scope R_scope.

(** ** Splitting into centrals and satellites *)
Section Ctx.
  Variables (c : hod_ctx) (md : hod_model).

  Lemma mass_integral_plus f g b j :
    mass_integral c (fun b j m => f b j m + g b j m) b j
    = mass_integral c f b j + mass_integral c g b j.
  Proof.
    unfold mass_integral. rewrite <- simpson_plus.
    unfold simpson. destruct (Nat.even (c_nm c)); [destruct (Nat.eqb (c_nm c) 2)|];
      unfold Rdiv; try (f_equal; ring);
      unfold basic_simpson; try (f_equal; [apply sumR_ext; intros; f_equal; ring|f_equal; ring]).
    apply sumR_ext; intros; f_equal; ring.
  Qed.

  Lemma simpson_pw n f g x : (forall i, f i = g i) -> simpson n f x = simpson n g x.
  Proof.
    intros H. unfold simpson, basic_simpson.
    rewrite !H. destruct (Nat.even n); [destruct (Nat.eqb n 2); [reflexivity|]|];
    [f_equal|]; apply sumR_ext; intros; rewrite !H; reflexivity.
  Qed.

  Lemma ntot_split b j : ntot c md b j = ncen c md b j + nsat c md b j.
  Proof. unfold ntot, compute_hod. apply mass_integral_plus. Qed.

  Lemma mass_avg_split b j : mass_avg_tot c md b j = mass_avg_cen c md b j + mass_avg_sat c md b j.
  Proof.
    unfold mass_avg_tot, mass_avg_cen, mass_avg_sat, mean_mass_integral, compute_hod.
    rewrite <- simpson_plus. apply simpson_pw. intros i. ring.
  Qed.

  Lemma bias_int_plus (nt : nat -> nat -> R) f g b j :
    bias_integral c nt (fun b j m => f b j m + g b j m) b j
    = bias_integral c nt f b j + bias_integral c nt g b j.
  Proof.
    unfold bias_integral. unfold Rdiv at 1 3 5. rewrite <- Rmult_plus_distr_r. f_equal.
    rewrite <- simpson_plus. apply simpson_pw. intros i. unfold Rdiv. ring.
  Qed.

  Lemma bg_split b j : bg_tot c md b j = bg_cen c md b j + bg_sat c md b j.
  Proof. unfold bg_tot, compute_hod. apply bias_int_plus. Qed.

  Lemma z_interp_plus f g b i :
    z_interpolate c Extrapolate (fun b j => f b j + g b j) b i
    = z_interpolate c Extrapolate f b i + z_interpolate c Extrapolate g b i.
  Proof. unfold z_interpolate. simpl. apply interp_plus. Qed.

  Lemma z_interp_ext fl f g b i : (2 <= nz (c_set c))%nat ->
    (forall j, (j < nz (c_set c))%nat -> f b j = g b j) ->
    z_interpolate c fl f b i = z_interpolate c fl g b i.
  Proof. intros Hn H. apply interp1d_ext; assumption. Qed.

  Lemma z_interp_pw fl f g b i : (forall j, f b j = g b j) ->
    z_interpolate c fl f b i = z_interpolate c fl g b i.
  Proof.
    intros H. unfold z_interpolate. destruct fl; simpl;
      unfold interp_lin; rewrite !H; reflexivity.
  Qed.

  Lemma hod_split b i m :
    hod_tot c md b i m = hod_cen c md b i m + hod_sat c md b i m.
  Proof. unfold hod_tot, compute_hod. apply z_interp_plus. Qed.

  Lemma number_density_split b i :
    number_density c md b i = number_density_cen c md b i + number_density_sat c md b i.
  Proof.
    unfold number_density. rewrite (z_interp_pw _ _ (fun b j => ncen c md b j + nsat c md b j)).
    - apply z_interp_plus.
    - intros j. apply ntot_split.
  Qed.

  Lemma bias_split b i :
    galaxy_linear_bias c md b i
    = galaxy_linear_bias_cen c md b i + galaxy_linear_bias_sat c md b i.
  Proof.
    unfold galaxy_linear_bias. rewrite (z_interp_pw _ _ (fun b j => bg_cen c md b j + bg_sat c md b j)).
    - apply z_interp_plus.
    - intros j. apply bg_split.
  Qed.

  Lemma avg_mass_split b i :
    avg_halo_mass c md b i = avg_halo_mass_cen c md b i + avg_halo_mass_sat c md b i.
  Proof.
    unfold avg_halo_mass. rewrite (z_interp_pw _ _ (fun b j => mass_avg_cen c md b j + mass_avg_sat c md b j)).
    - unfold avg_halo_mass_cen, avg_halo_mass_sat, z_interpolate.
      apply (interp1d_plus (FillValue 0) (FillValue 0) (FillValue 0)). right; left; auto.
    - intros j. apply mass_avg_split.
  Qed.

  (** ** Interpolation cases *)
  Lemma z_interp_const fl v b i : valid_z c -> (b < zbins (c_set c))%nat ->
    (fl = Extrapolate \/ in_range c b i) ->
    z_interpolate c fl (fun _ _ => v) b i = v.
  Proof.
    intros (Hn & Hz & _ & _) Hb H. unfold z_interpolate.
    destruct H as [-> | [H0 H1]].
    - simpl. apply interp_const; [exact Hn|apply Hz, Hb].
    - rewrite interp1d_inside by assumption. apply interp_const; [exact Hn|apply Hz, Hb].
  Qed.

  Lemma z_interp_bounds fl f b i lo hi : valid_z c -> (b < zbins (c_set c))%nat -> in_range c b i ->
    (forall j, (j < nz (c_set c))%nat -> lo <= f b j <= hi) ->
    lo <= z_interpolate c fl f b i <= hi.
  Proof.
    intros (Hn & Hz & _ & _) Hb [H0 H1] Hf. unfold z_interpolate.
    rewrite interp1d_inside by assumption. apply interp_bounds; try assumption. apply Hz, Hb.
  Qed.

  Lemma z_interp_outside v f b i : out_of_range c b i -> z_interpolate c (FillValue v) f b i = v.
  Proof. intros H. unfold z_interpolate. apply interp1d_outside. exact H. Qed.

  Lemma z_interp_node fl f b i j : valid_z c -> (b < zbins (c_set c))%nat -> (j < nz (c_set c))%nat ->
    c_zvec c i = hod_z (c_set c) b j -> z_interpolate c fl f b i = f b j.
  Proof.
    intros (Hn & Hz & _ & _) Hb Hj E. unfold z_interpolate.
    rewrite interp1d_inside.
    - rewrite E. apply interp_node; [exact Hn|apply Hz, Hb|exact Hj].
    - rewrite E. apply (incr_le (nz (c_set c))); [apply Hz, Hb|lia|exact Hj].
    - rewrite E. apply (incr_le (nz (c_set c))); [apply Hz, Hb|lia|lia].
  Qed.

  (** ** Signs *)
  Lemma dndlnm_int_nonneg b j m : valid_z c -> valid_hmf c -> (b < zbins (c_set c))%nat ->
    (j < nz (c_set c))%nat -> (m < c_nm c)%nat -> 0 <= dndlnm_int c b j m.
  Proof.
    intros (_ & _ & Hn & Hz) [Hd Hr] Hb Hj Hm. unfold dndlnm_int. simpl.
    destruct (Hr b j Hb Hj) as [H0 H1].
    apply interp_nonneg; try assumption. intros i Hi. apply Hd; assumption.
  Qed.

  Lemma mass_pos m : valid_mass c -> (m < c_nm c)%nat -> 0 < c_mass c m.
  Proof.
    intros (_ & r & [Hr _] & G) Hm. apply (geometric_pos (c_nm c) r); [lra|exact G|exact Hm].
  Qed.

  Lemma mass_integral_nonneg N b j : valid_z c -> valid_mass c -> valid_hmf c ->
    (b < zbins (c_set c))%nat -> (j < nz (c_set c))%nat -> nonneg_occ c N b ->
    0 <= mass_integral c N b j.
  Proof.
    intros Hz Hm Hh Hb Hj HN. destruct (Hm) as (Hn & r & [Hr Hr2] & G).
    unfold mass_integral. apply (simpson_nonneg (c_nm c) r); try assumption.
    intros m Hlt. unfold Rdiv. apply Rmult_le_pos.
    - apply Rmult_le_pos; [apply HN; assumption|apply dndlnm_int_nonneg; assumption].
    - left. apply Rinv_0_lt_compat, mass_pos; assumption.
  Qed.

  Lemma fractions_sum b i : valid_z c -> (b < zbins (c_set c))%nat -> in_range c b i ->
    (forall j, (j < nz (c_set c))%nat -> ntot c md b j <> 0) ->
    f_c c md b i + f_s c md b i = 1.
  Proof.
    intros Hz Hb [H0 H1] Hnt. unfold f_c, f_s, z_interpolate.
    rewrite !interp1d_inside by assumption. rewrite <- interp_plus.
    destruct Hz as (Hn & Hz & _).
    rewrite (interp_ext _ _ _ (fun _ => 1)).
    - apply interp_const; [exact Hn|apply Hz, Hb].
    - exact Hn.
    - intros j Hj. rewrite ntot_split in *. specialize (Hnt j Hj). rewrite ntot_split in Hnt. field. exact Hnt.
  Qed.

  Lemma fraction_bounds b i : valid_z c -> valid_mass c -> valid_hmf c ->
    (b < zbins (c_set c))%nat -> in_range c b i ->
    nonneg_occ c (compute_hod_cen c md) b -> nonneg_occ c (compute_hod_sat c md) b ->
    (forall j, (j < nz (c_set c))%nat -> ntot c md b j <> 0) ->
    0 <= f_c c md b i <= 1 /\ 0 <= f_s c md b i <= 1.
  Proof.
    intros Hz Hm Hh Hb Hr Hc Hs Hnt.
    assert (HH : forall j, (j < nz (c_set c))%nat ->
       0 <= ncen c md b j / ntot c md b j <= 1 /\ 0 <= nsat c md b j / ntot c md b j <= 1).
    { intros j Hj. pose proof (mass_integral_nonneg _ b j Hz Hm Hh Hb Hj Hc) as P1.
      pose proof (mass_integral_nonneg _ b j Hz Hm Hh Hb Hj Hs) as P2.
      fold (ncen c md b j) in P1. fold (nsat c md b j) in P2. specialize (Hnt j Hj).
      rewrite ntot_split in *.
      assert (Hp : 0 < ncen c md b j + nsat c md b j) by lra.
      assert (Hi : 0 < / (ncen c md b j + nsat c md b j)) by (apply Rinv_0_lt_compat, Hp).
      unfold Rdiv. repeat split; try (apply Rmult_le_pos; lra).
      - rewrite <- (Rinv_r (ncen c md b j + nsat c md b j)) by lra. apply Rmult_le_compat_r; lra.
      - rewrite <- (Rinv_r (ncen c md b j + nsat c md b j)) by lra. apply Rmult_le_compat_r; lra. }
    split; unfold f_c, f_s; apply z_interp_bounds; try assumption; intros j Hj; apply (HH j Hj).
  Qed.

  (** ** Bias bounds *)
  Lemma bias_node_bounds lo hi b j : valid_z c -> valid_mass c -> valid_hmf c ->
    (b < zbins (c_set c))%nat -> (j < nz (c_set c))%nat ->
    nonneg_occ c (compute_hod_cen c md) b -> nonneg_occ c (compute_hod_sat c md) b ->
    ntot c md b j <> 0 ->
    (forall i m, (i < c_nzv c)%nat -> (m < c_nm c)%nat -> lo <= c_bias c i m <= hi) ->
    lo <= bg_tot c md b j <= hi.
  Proof.
    intros Hz Hm Hh Hb Hj Hc Hs Hnt Hbias.
    assert (HN : nonneg_occ c (compute_hod c md) b).
    { intros j' m Hj' Hm'. unfold compute_hod. specialize (Hc j' m Hj' Hm'). specialize (Hs j' m Hj' Hm'). lra. }
    pose proof (mass_integral_nonneg _ b j Hz Hm Hh Hb Hj HN) as P. fold (ntot c md) in P.
    assert (Hp : 0 < ntot c md b j) by lra.
    destruct (Hm) as (Hn & r & [Hr Hr2] & G).
    assert (HB : forall m, (m < c_nm c)%nat -> lo <= halo_bias_int c b j m <= hi).
    { intros m Hlt. unfold halo_bias_int. simpl.
      destruct Hz as (_ & _ & Hn2 & Hzv). destruct Hh as [_ Hrg]. destruct (Hrg b j Hb Hj).
      apply (interp_bounds (c_nzv c)); try assumption. intros i Hi. apply Hbias; assumption. }
    assert (HW : forall m, (m < c_nm c)%nat ->
       0 <= compute_hod c md b j m * dndlnm_int c b j m / c_mass c m).
    { intros m Hlt. unfold Rdiv. apply Rmult_le_pos;
        [apply Rmult_le_pos; [apply HN; assumption|apply dndlnm_int_nonneg; assumption]|].
      left. apply Rinv_0_lt_compat, mass_pos; assumption. }
    assert (E : forall k, k * ntot c md b j = simpson (c_nm c)
       (fun m => k * (compute_hod c md b j m * dndlnm_int c b j m / c_mass c m)) (c_mass c)).
    { intros k. rewrite simpson_scal. reflexivity. }
    unfold bg_tot, bias_integral.
    set (I := simpson _ _ _).
    assert (L : lo * ntot c md b j <= I).
    { rewrite E. apply (simpson_le (c_nm c) r); try assumption. intros m Hlt.
      specialize (HW m Hlt). specialize (HB m Hlt).
      replace (compute_hod c md b j m * halo_bias_int c b j m * dndlnm_int c b j m / c_mass c m)
        with (halo_bias_int c b j m * (compute_hod c md b j m * dndlnm_int c b j m / c_mass c m))
        by (unfold Rdiv; ring).
      apply Rmult_le_compat_r; [exact HW|lra]. }
    assert (U : I <= hi * ntot c md b j).
    { rewrite E. apply (simpson_le (c_nm c) r); try assumption. intros m Hlt.
      specialize (HW m Hlt). specialize (HB m Hlt).
      replace (compute_hod c md b j m * halo_bias_int c b j m * dndlnm_int c b j m / c_mass c m)
        with (halo_bias_int c b j m * (compute_hod c md b j m * dndlnm_int c b j m / c_mass c m))
        by (unfold Rdiv; ring).
      apply Rmult_le_compat_r; [exact HW|lra]. }
    assert (Hi : 0 < / ntot c md b j) by (apply Rinv_0_lt_compat, Hp).
    split.
    - apply Rmult_le_reg_r with (ntot c md b j); [exact Hp|].
      unfold Rdiv. rewrite Rmult_assoc, Rinv_l by lra. lra.
    - apply Rmult_le_reg_r with (ntot c md b j); [exact Hp|].
      unfold Rdiv. rewrite Rmult_assoc, Rinv_l by lra. lra.
  Qed.

  Lemma bias_bounds lo hi b i : valid_z c -> valid_mass c -> valid_hmf c ->
    (b < zbins (c_set c))%nat -> in_range c b i ->
    nonneg_occ c (compute_hod_cen c md) b -> nonneg_occ c (compute_hod_sat c md) b ->
    (forall j, (j < nz (c_set c))%nat -> ntot c md b j <> 0) ->
    (forall i m, (i < c_nzv c)%nat -> (m < c_nm c)%nat -> lo <= c_bias c i m <= hi) ->
    lo <= galaxy_linear_bias c md b i <= hi.
  Proof.
    intros. unfold galaxy_linear_bias. apply z_interp_bounds; try assumption.
    intros j Hj. apply bias_node_bounds; try assumption. auto.
  Qed.

  (** ** Integrals are integrals *)
  Lemma dndlnm_at_node b j i m : valid_z c -> (i < c_nzv c)%nat ->
    c_zvec c i = hod_z (c_set c) b j -> dndlnm_int c b j m = c_dndlnm c i m.
  Proof.
    intros (_ & _ & Hn & Hz) Hi E. unfold dndlnm_int. simpl. rewrite <- E.
    apply (interp_node (c_nzv c) (c_zvec c) (fun i => c_dndlnm c i m)); assumption.
  Qed.

  Lemma bias_at_node b j i m : valid_z c -> (i < c_nzv c)%nat ->
    c_zvec c i = hod_z (c_set c) b j -> halo_bias_int c b j m = c_bias c i m.
  Proof.
    intros (_ & _ & Hn & Hz) Hi E. unfold halo_bias_int. simpl. rewrite <- E.
    apply (interp_node (c_nzv c) (c_zvec c) (fun i => c_bias c i m)); assumption.
  Qed.
End Ctx.

(** ** Pointwise occupations *)
Lemma decorate_cen_range A N : 0 <= N <= 1 ->
  (forall a, A = Some a -> -1 <= a <= 1) -> 0 <= decorate_cen A N <= 1.
Proof.
  intros HN HA. unfold decorate_cen. destruct A as [a|]; [|exact HN].
  specialize (HA a eq_refl). unfold fmin. destruct (Rle_dec N (1 - N)).
  - assert (-N <= a * N <= N) by (split; nra). lra.
  - assert (-(1-N) <= a * (1-N) <= 1-N) by (split; nra). lra.
Qed.

Lemma decorate_cen_mono A N N' : 0 <= N -> N <= N' -> N' <= 1 ->
  (forall a, A = Some a -> -1 <= a <= 1) -> decorate_cen A N <= decorate_cen A N'.
Proof.
  intros H0 H H1 HA. unfold decorate_cen. destruct A as [a|]; [|exact H].
  specialize (HA a eq_refl). unfold fmin.
  destruct (Rle_dec N (1 - N)), (Rle_dec N' (1 - N')); nra.
Qed.

Lemma decorate_cen_zero N : decorate_cen (Some 0) N = N.
Proof. unfold decorate_cen. ring. Qed.

Lemma decorate_sat_scale a N : decorate_sat (Some a) N = (1 + a) * N.
Proof. unfold decorate_sat. ring. Qed.

Lemma step_range Mmin m : 0 <= step_cen Mmin m <= 1.
Proof. unfold step_cen. destruct (heaviside01 (m - Mmin)) as [-> | ->]; lra. Qed.

Lemma erf_cen_range sigma Mmin m : 0 <= erf_cen sigma Mmin m <= 1.
Proof.
  unfold erf_cen. destruct (Req_EM_T sigma 0).
  - apply step_range.
  - pose proof (erf_bounds (log10 (m / Mmin) / sigma)). lra.
Qed.

Lemma step_mono Mmin m m' : m <= m' -> step_cen Mmin m <= step_cen Mmin m'.
Proof. intros H. unfold step_cen. apply heaviside_le. lra. Qed.

Lemma erf_cen_mono sigma Mmin m m' : 0 <= sigma -> 0 < Mmin -> 0 < m -> m <= m' ->
  erf_cen sigma Mmin m <= erf_cen sigma Mmin m'.
Proof.
  intros Hs HM Hm H. unfold erf_cen. destruct (Req_EM_T sigma 0) as [E|E].
  - apply step_mono, H.
  - assert (erf (log10 (m / Mmin) / sigma) <= erf (log10 (m' / Mmin) / sigma)); [|lra].
    apply erf_le. unfold Rdiv at 1 3. apply Rmult_le_compat_r.
    + left. apply Rinv_0_lt_compat. lra.
    + apply log10_le; [apply Rdiv_lt_0_compat; assumption|].
      unfold Rdiv. apply Rmult_le_compat_r; [left; apply Rinv_0_lt_compat, HM|exact H].
Qed.

Lemma erf_cen_half sigma Mmin : sigma <> 0 -> 0 < Mmin -> erf_cen sigma Mmin Mmin = 1 / 2.
Proof.
  intros Hs HM. unfold erf_cen. destruct (Req_EM_T sigma 0); [contradiction|].
  unfold Rdiv at 2 3. rewrite Rinv_r by lra. rewrite log10_1, Rmult_0_l, erf_0. lra.
Qed.

Lemma div_le a b k : 0 < k -> a <= b -> a / k <= b / k.
Proof. intros Hk H. unfold Rdiv. apply Rmult_le_compat_r; [left; apply Rinv_0_lt_compat, Hk|exact H]. Qed.

Lemma div_ge0 a k : 0 < k -> 0 <= a -> 0 <= a / k.
Proof. intros Hk H. unfold Rdiv. apply Rmult_le_pos; [exact H|left; apply Rinv_0_lt_compat, Hk]. Qed.

Lemma zheng_arg_nonneg M0 M1 m : 0 < M1 -> 0 <= heaviside (m - M0) 1 * (m - M0) / M1.
Proof.
  intros H1. apply div_ge0; [exact H1|]. destruct (Rlt_dec (m - M0) 0).
  - rewrite heaviside_neg by assumption. lra.
  - rewrite heaviside_nonneg1 by lra. lra.
Qed.

Lemma zheng_sat_mono M0 M1 alpha m m' : 0 < alpha -> 0 < M1 -> m <= m' ->
  zheng_sat M0 M1 alpha m <= zheng_sat M0 M1 alpha m'.
Proof.
  intros Ha H1 H. unfold zheng_sat. apply fpow_le; [exact Ha|apply zheng_arg_nonneg, H1|].
  apply div_le; [exact H1|]. destruct (Rlt_dec (m - M0) 0).
  - rewrite (heaviside_neg (m - M0)) by assumption.
    destruct (Rlt_dec (m' - M0) 0); [rewrite heaviside_neg by assumption; lra|].
    rewrite heaviside_nonneg1 by lra. lra.
  - rewrite !heaviside_nonneg1 by lra. lra.
Qed.

Lemma zheng_sat_below M0 M1 alpha m : 0 < alpha -> m <= M0 -> zheng_sat M0 M1 alpha m = 0.
Proof.
  intros Ha H. unfold zheng_sat.
  replace (heaviside (m - M0) 1 * (m - M0) / M1) with 0; [apply fpow_zero, Ha|].
  destruct (Rlt_dec (m - M0) 0).
  - rewrite heaviside_neg by assumption. unfold Rdiv. ring.
  - replace (m - M0) with 0 by lra. unfold Rdiv. ring.
Qed.

Lemma zheng_sat_above M0 M1 alpha m : 0 < M1 -> M0 <= m -> zheng_sat M0 M1 alpha m = fpow ((m - M0) / M1) alpha.
Proof.
  intros H1 H. unfold zheng_sat. rewrite heaviside_nonneg1 by lra. rewrite Rmult_1_l. reflexivity.
Qed.

Lemma exp_inv_mono Mcut m m' : 0 <= Mcut -> 0 < m -> m <= m' -> exp (- Mcut / m) <= exp (- Mcut / m').
Proof.
  intros HM Hm H.
  assert (- Mcut / m <= - Mcut / m').
  { unfold Rdiv. rewrite <- !Ropp_mult_distr_l. apply Ropp_le_contravar.
    apply Rmult_le_compat_l; [exact HM|]. apply Rinv_le_contravar; assumption. }
  destruct H0 as [H0|H0]; [left; apply exp_increasing, H0|rewrite H0; lra].
Qed.

Lemma zhai_sat_mono Msat Mcut alpha m m' : 0 < alpha -> 0 < Msat -> 0 <= Mcut -> 0 < m -> m <= m' ->
  zhai_sat Msat Mcut alpha m <= zhai_sat Msat Mcut alpha m'.
Proof.
  intros Ha HM Hc Hm H. unfold zhai_sat. apply Rmult_le_compat.
  - apply fpow_ge0.
  - left; apply exp_pos.
  - apply fpow_le; [exact Ha|apply div_ge0; lra|apply div_le; assumption].
  - apply exp_inv_mono; assumption.
Qed.
