(** Further HOD lemmas: integrals, per-model occupations, grids. *)
From Coquelicot Require Import Coquelicot.
From Verif Require Import Base Spec Quad Interp Erf HodModel HodSpec
  BaseFacts QuadFacts InterpFacts ErfFacts NumFacts HodFacts.
Open Scope R_scope.

Lemma mass_incr c : valid_mass c -> increasing (c_nm c) (c_mass c).
Proof. intros (_ & r & [Hr _] & G). apply (geometric_incr _ r); assumption. Qed.

(** ** Integrals equal Riemann integrals on quadratics *)
Lemma mass_integral_RInt c N (Nf nf : R -> R) b j i :
  valid_z c -> valid_mass c -> (3 <= c_nm c)%nat -> (i < c_nzv c)%nat ->
  c_zvec c i = hod_z (c_set c) b j ->
  (forall m, (m < c_nm c)%nat -> N b j m = Nf (c_mass c m)) ->
  (forall m, (m < c_nm c)%nat -> c_dndlnm c i m = c_mass c m * nf (c_mass c m)) ->
  is_parabola (fun M => Nf M * nf M) ->
  mass_integral c N b j = RInt (fun M => Nf M * nf M) (c_mass c 0%nat) (c_mass c (c_nm c - 1)%nat).
Proof.
  intros Hz Hm Hn Hi E HN Hd Hp. unfold mass_integral.
  rewrite <- (simpson_RInt (c_nm c)) by (try assumption; apply mass_incr, Hm).
  apply simpson_ext; [lia| |reflexivity]. intros m Hlt.
  rewrite (dndlnm_at_node c b j i m) by assumption. rewrite HN, Hd by exact Hlt.
  field. pose proof (mass_pos c m Hm Hlt). lra.
Qed.

Lemma mean_mass_integral_RInt c N (Nf nf : R -> R) b j i :
  valid_z c -> valid_mass c -> (3 <= c_nm c)%nat -> (i < c_nzv c)%nat ->
  c_zvec c i = hod_z (c_set c) b j ->
  (forall m, (m < c_nm c)%nat -> N b j m = Nf (c_mass c m)) ->
  (forall m, (m < c_nm c)%nat -> c_dndlnm c i m = c_mass c m * nf (c_mass c m)) ->
  is_parabola (fun M => Nf M * nf M * M) ->
  mean_mass_integral c N b j
  = RInt (fun M => Nf M * nf M * M) (c_mass c 0%nat) (c_mass c (c_nm c - 1)%nat).
Proof.
  intros Hz Hm Hn Hi E HN Hd Hp. unfold mean_mass_integral.
  rewrite <- (simpson_RInt (c_nm c)) by (try assumption; apply mass_incr, Hm).
  apply simpson_ext; [lia| |reflexivity]. intros m Hlt.
  rewrite (dndlnm_at_node c b j i m) by assumption. rewrite HN, Hd by exact Hlt. ring.
Qed.

Lemma bias_integral_RInt c nt N (Nf nf bf : R -> R) b j i :
  valid_z c -> valid_mass c -> (3 <= c_nm c)%nat -> (i < c_nzv c)%nat ->
  c_zvec c i = hod_z (c_set c) b j ->
  (forall m, (m < c_nm c)%nat -> N b j m = Nf (c_mass c m)) ->
  (forall m, (m < c_nm c)%nat -> c_dndlnm c i m = c_mass c m * nf (c_mass c m)) ->
  (forall m, (m < c_nm c)%nat -> c_bias c i m = bf (c_mass c m)) ->
  is_parabola (fun M => Nf M * bf M * nf M) ->
  bias_integral c nt N b j
  = RInt (fun M => Nf M * bf M * nf M) (c_mass c 0%nat) (c_mass c (c_nm c - 1)%nat) / nt b j.
Proof.
  intros Hz Hm Hn Hi E HN Hd Hb Hp. unfold bias_integral. f_equal.
  rewrite <- (simpson_RInt (c_nm c)) by (try assumption; apply mass_incr, Hm).
  apply simpson_ext; [lia| |reflexivity]. intros m Hlt.
  rewrite (dndlnm_at_node c b j i m), (bias_at_node c b j i m) by assumption.
  rewrite HN, Hd, Hb by exact Hlt.
  field. pose proof (mass_pos c m Hm Hlt). lra.
Qed.

(** API level, for each of the three populations. *)
Definition pop_occ (c : hod_ctx) (md : hod_model) (k : nat) : A3 :=
  match k with 0%nat => compute_hod_cen c md | 1%nat => compute_hod_sat c md | _ => compute_hod c md end.

Lemma densities_RInt c md (Nc Ns nf : R -> R) b j i :
  valid_z c -> valid_mass c -> (3 <= c_nm c)%nat -> (b < zbins (c_set c))%nat ->
  (j < nz (c_set c))%nat -> (i < c_nzv c)%nat -> c_zvec c i = hod_z (c_set c) b j ->
  (forall m, (m < c_nm c)%nat -> hod_cen c md b i m = Nc (c_mass c m)) ->
  (forall m, (m < c_nm c)%nat -> hod_sat c md b i m = Ns (c_mass c m)) ->
  (forall m, (m < c_nm c)%nat -> c_dndlnm c i m = c_mass c m * nf (c_mass c m)) ->
  is_parabola (fun M => Nc M * nf M) -> is_parabola (fun M => Ns M * nf M) ->
  number_density_cen c md b i
    = RInt (fun M => Nc M * nf M) (c_mass c 0%nat) (c_mass c (c_nm c - 1)%nat) /\
  number_density_sat c md b i
    = RInt (fun M => Ns M * nf M) (c_mass c 0%nat) (c_mass c (c_nm c - 1)%nat).
Proof.
  intros Hz Hm Hn Hb Hj Hi E HNc HNs Hd Hpc Hps.
  assert (Oc : forall m, (m < c_nm c)%nat -> compute_hod_cen c md b j m = Nc (c_mass c m)).
  { intros m Hlt. rewrite <- HNc by exact Hlt. unfold hod_cen.
    rewrite (z_interp_node c Extrapolate _ b i j) by assumption. reflexivity. }
  assert (Os : forall m, (m < c_nm c)%nat -> compute_hod_sat c md b j m = Ns (c_mass c m)).
  { intros m Hlt. rewrite <- HNs by exact Hlt. unfold hod_sat.
    rewrite (z_interp_node c Extrapolate _ b i j) by assumption. reflexivity. }
  unfold number_density_cen, number_density_sat.
  rewrite !(z_interp_node c Extrapolate _ b i j) by assumption.
  split; apply (mass_integral_RInt c _ _ _ b j i); assumption.
Qed.

Lemma bias_RInt c md (Nc Ns nf bf : R -> R) b j i :
  valid_z c -> valid_mass c -> (3 <= c_nm c)%nat -> (b < zbins (c_set c))%nat ->
  (j < nz (c_set c))%nat -> (i < c_nzv c)%nat -> c_zvec c i = hod_z (c_set c) b j ->
  (forall m, (m < c_nm c)%nat -> hod_cen c md b i m = Nc (c_mass c m)) ->
  (forall m, (m < c_nm c)%nat -> hod_sat c md b i m = Ns (c_mass c m)) ->
  (forall m, (m < c_nm c)%nat -> c_dndlnm c i m = c_mass c m * nf (c_mass c m)) ->
  (forall m, (m < c_nm c)%nat -> c_bias c i m = bf (c_mass c m)) ->
  is_parabola (fun M => Nc M * bf M * nf M) -> is_parabola (fun M => Ns M * bf M * nf M) ->
  galaxy_linear_bias_cen c md b i
    = RInt (fun M => Nc M * bf M * nf M) (c_mass c 0%nat) (c_mass c (c_nm c - 1)%nat)
      / number_density c md b i /\
  galaxy_linear_bias_sat c md b i
    = RInt (fun M => Ns M * bf M * nf M) (c_mass c 0%nat) (c_mass c (c_nm c - 1)%nat)
      / number_density c md b i.
Proof.
  intros Hz Hm Hn Hb Hj Hi E HNc HNs Hd Hbi Hpc Hps.
  assert (Oc : forall m, (m < c_nm c)%nat -> compute_hod_cen c md b j m = Nc (c_mass c m)).
  { intros m Hlt. rewrite <- HNc by exact Hlt. unfold hod_cen.
    rewrite (z_interp_node c Extrapolate _ b i j) by assumption. reflexivity. }
  assert (Os : forall m, (m < c_nm c)%nat -> compute_hod_sat c md b j m = Ns (c_mass c m)).
  { intros m Hlt. rewrite <- HNs by exact Hlt. unfold hod_sat.
    rewrite (z_interp_node c Extrapolate _ b i j) by assumption. reflexivity. }
  unfold galaxy_linear_bias_cen, galaxy_linear_bias_sat, number_density.
  rewrite !(z_interp_node c Extrapolate _ b i j) by assumption.
  split; apply (bias_integral_RInt c _ _ _ _ _ b j i); assumption.
Qed.

Lemma avg_mass_RInt c md (Nc Ns nf : R -> R) b j i :
  valid_z c -> valid_mass c -> (3 <= c_nm c)%nat -> (b < zbins (c_set c))%nat ->
  (j < nz (c_set c))%nat -> (i < c_nzv c)%nat -> c_zvec c i = hod_z (c_set c) b j ->
  (forall m, (m < c_nm c)%nat -> hod_cen c md b i m = Nc (c_mass c m)) ->
  (forall m, (m < c_nm c)%nat -> hod_sat c md b i m = Ns (c_mass c m)) ->
  (forall m, (m < c_nm c)%nat -> c_dndlnm c i m = c_mass c m * nf (c_mass c m)) ->
  is_parabola (fun M => Nc M * nf M * M) -> is_parabola (fun M => Ns M * nf M * M) ->
  avg_halo_mass_cen c md b i
    = RInt (fun M => Nc M * nf M * M) (c_mass c 0%nat) (c_mass c (c_nm c - 1)%nat) /\
  avg_halo_mass_sat c md b i
    = RInt (fun M => Ns M * nf M * M) (c_mass c 0%nat) (c_mass c (c_nm c - 1)%nat).
Proof.
  intros Hz Hm Hn Hb Hj Hi E HNc HNs Hd Hpc Hps.
  assert (Oc : forall m, (m < c_nm c)%nat -> compute_hod_cen c md b j m = Nc (c_mass c m)).
  { intros m Hlt. rewrite <- HNc by exact Hlt. unfold hod_cen.
    rewrite (z_interp_node c Extrapolate _ b i j) by assumption. reflexivity. }
  assert (Os : forall m, (m < c_nm c)%nat -> compute_hod_sat c md b j m = Ns (c_mass c m)).
  { intros m Hlt. rewrite <- HNs by exact Hlt. unfold hod_sat.
    rewrite (z_interp_node c Extrapolate _ b i j) by assumption. reflexivity. }
  unfold avg_halo_mass_cen, avg_halo_mass_sat.
  rewrite !(z_interp_node c (FillValue 0) _ b i j) by assumption.
  split; apply (mean_mass_integral_RInt c _ _ _ b j i); assumption.
Qed.

(** ** Redshift independence of the analytic models *)
Lemma hod_cen_const c md b i m : is_cacciato md = false -> valid_z c -> (b < zbins (c_set c))%nat ->
  hod_cen c md b i m = compute_hod_cen c md b 0 m.
Proof.
  intros Hc Hz Hb. unfold hod_cen.
  transitivity (z_interpolate c Extrapolate (fun _ _ => compute_hod_cen c md b 0 m) b i).
  - apply z_interp_pw. intros j. destruct md; try discriminate; reflexivity.
  - apply z_interp_const; auto.
Qed.

Lemma hod_sat_const c md b i m : is_cacciato md = false -> valid_z c -> (b < zbins (c_set c))%nat ->
  hod_sat c md b i m = compute_hod_sat c md b 0 m.
Proof.
  intros Hc Hz Hb. unfold hod_sat.
  transitivity (z_interpolate c Extrapolate (fun _ _ => compute_hod_sat c md b 0 m) b i).
  - apply z_interp_pw. intros j. destruct md; try discriminate; reflexivity.
  - apply z_interp_const; auto.
Qed.

Lemma cen_range c md b i m : is_cacciato md = false -> valid_z c -> (b < zbins (c_set c))%nat ->
  within_unit (amp_cen md) -> 0 <= hod_cen c md b i m <= 1.
Proof.
  intros Hc Hz Hb HA. rewrite hod_cen_const by assumption.
  destruct md; try discriminate; simpl in *; apply decorate_cen_range; try assumption;
    try apply step_range; apply erf_cen_range.
Qed.

Lemma cen_mono c md b i m m' : is_cacciato md = false -> valid_z c -> valid_mass c ->
  (b < zbins (c_set c))%nat -> within_unit (amp_cen md) -> 0 <= scatter md b ->
  (m <= m')%nat -> (m' < c_nm c)%nat ->
  hod_cen c md b i m <= hod_cen c md b i m'.
Proof.
  intros Hc Hz Hm Hb HA Hs Hle Hlt. rewrite !hod_cen_const by assumption.
  assert (H : c_mass c m <= c_mass c m') by (apply (incr_le (c_nm c)); [apply mass_incr, Hm|lia|lia]).
  assert (Hp : 0 < c_mass c m) by (apply mass_pos; [exact Hm|lia]).
  destruct md; try discriminate; simpl in *; apply decorate_cen_mono; try assumption;
    try apply step_range; try apply erf_cen_range; try (apply step_mono; assumption);
    apply erf_cen_mono; try assumption; apply pow10_pos.
Qed.

Lemma sat_nonneg c md b i m : is_cacciato md = false -> valid_z c -> (b < zbins (c_set c))%nat ->
  within_unit (amp_cen md) -> at_least_minus_one (amp_sat md) -> 0 <= hod_sat c md b i m.
Proof.
  intros Hc Hz Hb HAc HA. rewrite hod_sat_const by assumption.
  assert (D : forall A N, at_least_minus_one A -> 0 <= N -> 0 <= decorate_sat A N).
  { intros A N HA' HN. destruct A as [a|]; simpl; [|exact HN]. specialize (HA' a eq_refl). nra. }
  destruct md as [p|p|p|p|p]; try discriminate; simpl in *; apply D; try assumption.
  - unfold simple_sat. apply Rmult_le_pos; [|apply fpow_ge0].
    apply decorate_cen_range; [apply step_range|exact HAc].
  - apply fpow_ge0.
  - apply fpow_ge0.
  - unfold zhai_sat. apply Rmult_le_pos; [apply fpow_ge0|left; apply exp_pos].
Qed.

Lemma decorate_sat_mono A N N' : at_least_minus_one A -> N <= N' -> decorate_sat A N <= decorate_sat A N'.
Proof. intros HA H. destruct A as [a|]; simpl; [|exact H]. specialize (HA a eq_refl). nra. Qed.

Lemma sat_mono c md b i m m' : is_cacciato md = false -> valid_z c -> valid_mass c ->
  (b < zbins (c_set c))%nat -> within_unit (amp_cen md) -> at_least_minus_one (amp_sat md) ->
  0 < slope md b -> (m <= m')%nat -> (m' < c_nm c)%nat ->
  hod_sat c md b i m <= hod_sat c md b i m'.
Proof.
  intros Hc Hz Hm Hb HAc HA Hs Hle Hlt. rewrite !hod_sat_const by assumption.
  assert (H : c_mass c m <= c_mass c m') by (apply (incr_le (c_nm c)); [apply mass_incr, Hm|lia|lia]).
  assert (Hp : 0 < c_mass c m) by (apply mass_pos; [exact Hm|lia]).
  destruct md as [p|p|p|p|p]; try discriminate; simpl in *; apply decorate_sat_mono; try assumption.
  - unfold simple_sat. apply Rmult_le_compat.
    + apply decorate_cen_range; [apply step_range|exact HAc].
    + apply fpow_ge0.
    + apply decorate_cen_mono; try assumption; try apply step_range. apply step_mono, H.
    + apply fpow_le; [exact Hs|apply div_ge0; [apply pow10_pos|lra]|apply div_le; [apply pow10_pos|exact H]].
  - unfold zehavi_sat.
    apply fpow_le; [exact Hs|apply div_ge0; [apply pow10_pos|lra]|apply div_le; [apply pow10_pos|exact H]].
  - apply zheng_sat_mono; try assumption. apply pow10_pos.
  - apply zhai_sat_mono; try assumption; try apply pow10_pos. left; apply pow10_pos.
Qed.

Lemma zheng_cutoff c p b i m : valid_z c -> (b < zbins (c_set c))%nat ->
  0 < bin_par (zh_alpha p) b ->
  c_mass c m <= pow10 (bin_par (zh_log10_M0 p) b) -> hod_sat c (Zheng p) b i m = 0.
Proof.
  intros Hz Hb Ha Hm. rewrite hod_sat_const by (try assumption; reflexivity). simpl.
  rewrite zheng_sat_below by assumption. destruct (zh_A_sat p); simpl; ring.
Qed.

Lemma zheng_above c p b i m : valid_z c -> (b < zbins (c_set c))%nat ->
  pow10 (bin_par (zh_log10_M0 p) b) <= c_mass c m -> zh_A_sat p = None ->
  hod_sat c (Zheng p) b i m
  = fpow ((c_mass c m - pow10 (bin_par (zh_log10_M0 p) b)) / pow10 (bin_par (zh_log10_M1 p) b))
         (bin_par (zh_alpha p) b).
Proof.
  intros Hz Hb Hm HA. rewrite hod_sat_const by (try assumption; reflexivity). simpl. rewrite HA. simpl.
  apply zheng_sat_above; [apply pow10_pos|exact Hm].
Qed.

Lemma simple_cutoff c p b i m : valid_z c -> (b < zbins (c_set c))%nat ->
  c_mass c m < pow10 (bin_par (si_log10_Mmin p) b) ->
  hod_cen c (Simple p) b i m = 0 /\ hod_sat c (Simple p) b i m = 0.
Proof.
  intros Hz Hb Hm. rewrite hod_sat_const, hod_cen_const by (try assumption; reflexivity). simpl.
  unfold step_cen. rewrite heaviside_neg by lra.
  assert (E : decorate_cen (si_A_cen p) 0 = 0).
  { destruct (si_A_cen p); simpl; [|reflexivity]. unfold fmin. destruct (Rle_dec 0 (1 - 0)); [ring|lra]. }
  rewrite E. split; [reflexivity|]. unfold simple_sat. destruct (si_A_sat p); simpl; ring.
Qed.

(** Step models: above Mmin every halo hosts a central, whatever the decoration. *)
Lemma step_cen_above c md p b i m : md = Simple p \/ md = Zehavi p -> valid_z c ->
  (b < zbins (c_set c))%nat ->
  hod_cen c md b i m = if Rlt_dec (c_mass c m) (pow10 (bin_par (si_log10_Mmin p) b)) then 0 else 1.
Proof.
  intros Hmd Hz Hb.
  assert (E : forall x A, decorate_cen A (heaviside x 1) = if Rlt_dec x 0 then 0 else 1).
  { intros x A. destruct (Rlt_dec x 0) as [H|H].
    - rewrite heaviside_neg by exact H. destruct A; simpl; [|reflexivity].
      unfold fmin. destruct (Rle_dec 0 (1 - 0)); [ring|lra].
    - rewrite heaviside_nonneg1 by lra. destruct A; simpl; [|reflexivity].
      unfold fmin. destruct (Rle_dec 1 (1 - 1)); [lra|ring]. }
  destruct Hmd as [-> | ->]; rewrite hod_cen_const by (try assumption; reflexivity); simpl;
    unfold step_cen; rewrite E; destruct (Rlt_dec _ _), (Rlt_dec _ _); try reflexivity; lra.
Qed.

Lemma simple_sat_above c p b i m : valid_z c -> (b < zbins (c_set c))%nat ->
  pow10 (bin_par (si_log10_Mmin p) b) <= c_mass c m -> si_A_sat p = None ->
  hod_sat c (Simple p) b i m = hod_sat c (Zehavi p) b i m.
Proof.
  intros Hz Hb Hm HA. rewrite !hod_sat_const by (try assumption; reflexivity). simpl. rewrite HA. simpl.
  unfold simple_sat, step_cen. rewrite heaviside_nonneg1 by lra.
  replace (decorate_cen (si_A_cen p) 1) with 1; [unfold zehavi_sat; ring|].
  destruct (si_A_cen p); simpl; [|reflexivity]. unfold fmin. destruct (Rle_dec 1 (1 - 1)); [lra|ring].
Qed.

Lemma erf_cen_at_Mmin c md b i m : valid_z c -> (b < zbins (c_set c))%nat -> scatter md b <> 0 ->
  (exists p, md = Zheng p /\ zh_A_cen p = None /\ c_mass c m = pow10 (bin_par (zh_log10_Mmin p) b)) \/
  (exists p, md = Zhai p /\ zi_A_cen p = None /\ c_mass c m = pow10 (bin_par (zi_log10_Mmin p) b)) ->
  hod_cen c md b i m = 1 / 2.
Proof.
  intros Hz Hb Hs H. destruct H as [[p [-> [HA E]]]|[p [-> [HA E]]]];
    rewrite hod_cen_const by (try assumption; reflexivity); simpl in *; rewrite HA, E; simpl;
    apply erf_cen_half; try assumption; apply pow10_pos.
Qed.

Lemma zhai_at_Msat c p b i m : valid_z c -> (b < zbins (c_set c))%nat -> zi_A_sat p = None ->
  c_mass c m = pow10 (bin_par (zi_log10_Msat p) b) ->
  hod_sat c (Zhai p) b i m = exp (- (pow10 (bin_par (zi_log10_Mcut p) b) / pow10 (bin_par (zi_log10_Msat p) b))).
Proof.
  intros Hz Hb HA E. rewrite hod_sat_const by (try assumption; reflexivity). simpl. rewrite HA, E. simpl.
  unfold zhai_sat. pose proof (pow10_pos (bin_par (zi_log10_Msat p) b)).
  unfold Rdiv at 1. rewrite Rinv_r by lra. rewrite fpow_one, Rmult_1_l. f_equal. unfold Rdiv. ring.
Qed.

Lemma zehavi_at_Msat c p b i m : valid_z c -> (b < zbins (c_set c))%nat -> si_A_sat p = None ->
  c_mass c m = pow10 (bin_par (si_log10_Msat p) b) -> hod_sat c (Zehavi p) b i m = 1.
Proof.
  intros Hz Hb HA E. rewrite hod_sat_const by (try assumption; reflexivity). simpl. rewrite HA, E. simpl.
  unfold zehavi_sat, Rdiv. rewrite Rinv_r; [apply fpow_one|].
  pose proof (pow10_pos (bin_par (si_log10_Msat p) b)). lra.
Qed.

(** Slope: multiplying the mass by k multiplies Zehavi satellites by k^alpha. *)
Lemma zehavi_slope c p b i m m' k : valid_z c -> (b < zbins (c_set c))%nat -> si_A_sat p = None ->
  0 < c_mass c m -> 0 < k -> c_mass c m' = k * c_mass c m ->
  hod_sat c (Zehavi p) b i m' = Rpower k (bin_par (si_alpha p) b) * hod_sat c (Zehavi p) b i m.
Proof.
  intros Hz Hb HA Hm Hk E. rewrite !hod_sat_const by (try assumption; reflexivity). simpl. rewrite HA, E. simpl.
  unfold zehavi_sat. pose proof (pow10_pos (bin_par (si_log10_Msat p) b)).
  unfold Rdiv. rewrite Rmult_assoc. rewrite fpow_mult; [|exact Hk|].
  - rewrite (fpow_pos k) by exact Hk. reflexivity.
  - apply Rmult_lt_0_compat; [exact Hm|apply Rinv_0_lt_compat; lra].
Qed.

(** Zhai satellites are the Zehavi ones damped by exp(-Mcut/M). *)
Lemma zhai_damped c p q b i m : valid_z c -> (b < zbins (c_set c))%nat ->
  zi_A_sat p = si_A_sat q ->
  bin_par (zi_log10_Msat p) b = bin_par (si_log10_Msat q) b -> bin_par (zi_alpha p) b = bin_par (si_alpha q) b ->
  hod_sat c (Zhai p) b i m
  = hod_sat c (Zehavi q) b i m * exp (- (pow10 (bin_par (zi_log10_Mcut p) b) / c_mass c m)).
Proof.
  intros Hz Hb HA E1 E2. rewrite !hod_sat_const by (try assumption; reflexivity). simpl.
  rewrite HA, E1, E2. unfold zhai_sat, zehavi_sat.
  replace (- pow10 (bin_par (zi_log10_Mcut p) b) / c_mass c m)
    with (- (pow10 (bin_par (zi_log10_Mcut p) b) / c_mass c m)) by (unfold Rdiv; ring).
  destruct (si_A_sat q); simpl; ring.
Qed.

(** ** Zehavi as the limit of Zheng *)
Lemma zheng_zehavi_cen c p q b i m : valid_z c -> (b < zbins (c_set c))%nat ->
  bin_par (zh_sigma p) b = 0 -> zh_A_cen p = si_A_cen q ->
  bin_par (zh_log10_Mmin p) b = bin_par (si_log10_Mmin q) b ->
  hod_cen c (Zheng p) b i m = hod_cen c (Zehavi q) b i m.
Proof.
  intros Hz Hb Hs HA HM. rewrite !hod_cen_const by (try assumption; reflexivity). simpl.
  rewrite HA, HM, Hs. unfold erf_cen. destruct (Req_EM_T 0 0); [reflexivity|lra].
Qed.

Lemma zheng_zehavi_sat0 M1 alpha m : 0 <= m -> zheng_sat 0 M1 alpha m = zehavi_sat M1 alpha m.
Proof.
  intros Hm. unfold zheng_sat, zehavi_sat. rewrite Rminus_0_r, heaviside_nonneg1 by exact Hm.
  rewrite Rmult_1_l. reflexivity.
Qed.

Lemma zheng_sat_lim M1 alpha m : 0 < M1 -> 0 < m -> forall eps, 0 < eps ->
  exists d, 0 < d /\ forall M0, 0 < M0 < d -> Rabs (zheng_sat M0 M1 alpha m - zehavi_sat M1 alpha m) < eps.
Proof.
  intros H1 Hm eps He.
  assert (C : continuity_pt (fun M0 => Rpower ((m - M0) / M1) alpha) 0).
  { apply continuity_pt_filterlim.
    apply (ex_derive_continuous (V := R_NormedModule) (fun M0 => Rpower ((m - M0) / M1) alpha) 0).
    unfold Rpower. auto_derive.
    unfold Rdiv. apply Rmult_lt_0_compat; [lra|apply Rinv_0_lt_compat, H1]. }
  destruct (C eps He) as [d [Hd HC]].
  exists (Rmin d m). split; [apply Rmin_pos; assumption|].
  intros M0 [Hp Hlt].
  assert (M0 < d) by (apply Rlt_le_trans with (1 := Hlt), Rmin_l).
  assert (M0 < m) by (apply Rlt_le_trans with (1 := Hlt), Rmin_r).
  specialize (HC M0). simpl in HC. unfold R_dist in HC.
  rewrite zheng_sat_above by lra. unfold zehavi_sat.
  rewrite !fpow_pos by (apply Rdiv_lt_0_compat; lra).
  replace (m / M1) with ((m - 0) / M1) by (rewrite Rminus_0_r; reflexivity).
  apply HC. split.
  - split; [exact I|lra].
  - rewrite Rminus_0_r, Rabs_pos_eq; lra.
Qed.

Lemma zheng_zehavi_sat_lim c q b i m eps : valid_z c -> (b < zbins (c_set c))%nat ->
  0 < c_mass c m -> 0 < eps -> exists L, forall p,
    bin_par (zh_log10_M0 p) b < L -> zh_A_sat p = si_A_sat q ->
    bin_par (zh_log10_M1 p) b = bin_par (si_log10_Msat q) b -> bin_par (zh_alpha p) b = bin_par (si_alpha q) b ->
    Rabs (hod_sat c (Zheng p) b i m - hod_sat c (Zehavi q) b i m) < eps.
Proof.
  intros Hz Hb Hm He.
  set (K := match si_A_sat q with None => 1 | Some a => 1 + Rabs (1 + a) end).
  assert (HK : 1 <= K).
  { unfold K. destruct (si_A_sat q); [|lra]. pose proof (Rabs_pos (1 + r)). lra. }
  destruct (zheng_sat_lim (pow10 (bin_par (si_log10_Msat q) b)) (bin_par (si_alpha q) b) (c_mass c m)
              (pow10_pos _) Hm (eps / K)) as [d [Hd HL]].
  { apply Rdiv_lt_0_compat; lra. }
  exists (log10 d). intros p HM0 HA HM1 Hal.
  rewrite !hod_sat_const by (try assumption; reflexivity). simpl. rewrite HA, HM1, Hal.
  specialize (HL (pow10 (bin_par (zh_log10_M0 p) b))).
  assert (Hlt : Rabs (zheng_sat (pow10 (bin_par (zh_log10_M0 p) b)) (pow10 (bin_par (si_log10_Msat q) b))
      (bin_par (si_alpha q) b) (c_mass c m) -
      zehavi_sat (pow10 (bin_par (si_log10_Msat q) b)) (bin_par (si_alpha q) b) (c_mass c m)) < eps / K).
  { apply HL. split; [apply pow10_pos|]. rewrite <- (pow10_log10 d) by exact Hd. apply pow10_lt, HM0. }
  clear HL. unfold K in *. destruct (si_A_sat q) as [a|]; simpl.
  - set (u := zheng_sat _ _ _ _) in *. set (v := zehavi_sat _ _ _) in *.
    replace (u + a * u - (v + a * v)) with ((1 + a) * (u - v)) by ring. rewrite Rabs_mult.
    pose proof (Rabs_pos (1 + a)). pose proof (Rabs_pos (u - v)).
    apply Rle_lt_trans with ((1 + Rabs (1 + a)) * Rabs (u - v)); [nra|].
    apply Rlt_le_trans with ((1 + Rabs (1 + a)) * (eps / (1 + Rabs (1 + a)))).
    + apply Rmult_lt_compat_l; lra.
    + right. field. lra.
  - lra.
Qed.

(** ** Decoration *)
Lemma deco_zero_cen c md As b i m :
  hod_cen c (with_decoration (Some 0) As md) b i m = hod_cen c (with_decoration None As md) b i m.
Proof.
  unfold hod_cen. apply z_interp_pw. intros j. destruct md; simpl;
    try (unfold cacciato_cen; simpl); apply decorate_cen_zero.
Qed.

Lemma deco_sat_scale c md Ac a b i m :
  hod_sat c (with_decoration Ac (Some a) md) b i m = (1 + a) * hod_sat c (with_decoration Ac None md) b i m.
Proof.
  unfold hod_sat.
  transitivity (z_interpolate c Extrapolate (fun b j =>
     (1 + a) * compute_hod_sat c (with_decoration Ac None md) b j m) b i).
  - apply z_interp_pw. intros j. destruct md; apply decorate_sat_scale.
  - unfold z_interpolate; simpl. apply interp_scal.
Qed.

Lemma deco_step_inert c md p Ac As b i m : md = Simple p \/ md = Zehavi p -> valid_z c ->
  (b < zbins (c_set c))%nat ->
  hod_cen c (with_decoration Ac As md) b i m = hod_cen c md b i m.
Proof.
  intros H Hz Hb.
  rewrite (step_cen_above c md p) by assumption.
  destruct H as [-> | ->]; simpl with_decoration.
  - rewrite (step_cen_above c (Simple _) _ b i m (or_introl eq_refl)) by assumption. reflexivity.
  - rewrite (step_cen_above c (Zehavi _) _ b i m (or_intror eq_refl)) by assumption. reflexivity.
Qed.

(** Value of the decorated centrals in the erf models: lifts low, fills high occupations. *)
Lemma deco_cen_value c md a As b i m : is_cacciato md = false -> valid_z c -> (b < zbins (c_set c))%nat ->
  let N := hod_cen c (with_decoration None As md) b i m in
  hod_cen c (with_decoration (Some a) As md) b i m = N + a * Rmin N (1 - N).
Proof.
  intros Hc Hz Hb. cbv zeta. rewrite !hod_cen_const; try assumption; try (destruct md; assumption).
  destruct md; try discriminate; reflexivity.
Qed.

(** ** Cacciato *)
Lemma mean_obs_pos p m : 0 < m -> 0 < mean_obs_c p m.
Proof.
  intros Hm. unfold mean_obs_c. pose proof (pow10_pos (ca_log10_m_ch p)) as HM. fold (M_char p) in HM.
  assert (0 < m / M_char p) by (apply Rdiv_lt_0_compat; assumption).
  apply Rdiv_lt_0_compat; [apply Rmult_lt_0_compat|].
  - apply pow10_pos.
  - apply fpow_gt0; assumption.
  - apply fpow_gt0; lra.
Qed.

Lemma cof_cen_pos p o m : 0 < ca_sigma p -> 0 < o -> 0 < cof_cen p o m.
Proof.
  intros Hs Ho. unfold cof_cen. apply Rmult_lt_0_compat; [|apply exp_pos].
  apply Rdiv_lt_0_compat; [lra|].
  repeat apply Rmult_lt_0_compat; try assumption; try apply ln_ten_pos.
  apply sqrt_lt_R0. pose proof PI_RGT_0. lra.
Qed.

Lemma cof_sat_nonneg p o m : 0 < ca_norm_s p -> 0 < m -> 0 <= cof_sat p o m.
Proof.
  intros Hs Hm. unfold cof_sat. apply Rmult_le_pos; [|left; apply exp_pos].
  apply Rmult_le_pos; [|apply fpow_ge0]. left. apply Rdiv_lt_0_compat; [apply pow10_pos|].
  apply Rmult_lt_0_compat; [exact Hs|apply mean_obs_pos, Hm].
Qed.

Lemma obs_geometric c b j : valid_obs c b -> (j < nz (c_set c))%nat ->
  exists r, 1 < r <= 2 /\ log_uniform (hs_nobs (c_set c)) r (hod_obs (c_set c) b j).
Proof.
  intros [Hn H] Hj. specialize (H j Hj) as [H1 H2].
  exists (pow10 ((log_obs_max (c_set c) b j - log_obs_min (c_set c) b j) / INR (hs_nobs (c_set c) - 1))).
  pose proof (INR_pred_pos _ Hn) as HI.
  split; [split|apply logspace_geometric, Hn].
  - rewrite <- pow10_0. apply pow10_lt. apply Rdiv_lt_0_compat; assumption.
  - rewrite <- (pow10_log10 2) by lra. apply pow10_le.
    apply Rmult_le_reg_r with (INR (hs_nobs (c_set c) - 1)); [exact HI|].
    unfold Rdiv. rewrite Rmult_assoc, Rinv_l, Rmult_1_r by lra. exact H2.
Qed.

Lemma hod_obs_pos s b j o : 0 < hod_obs s b j o.
Proof. apply pow10_pos. Qed.

Lemma cacciato_cen_nonneg c p b : valid_mass c -> valid_obs c b -> valid_cacciato p ->
  ca_A_cen p = None -> nonneg_occ c (compute_hod_cen c (Cacciato p)) b.
Proof.
  intros Hm Ho [Hs _] HA j m Hj Hlt. simpl. unfold cacciato_cen. rewrite HA. simpl.
  destruct (obs_geometric c b j Ho Hj) as [r [[Hr Hr2] G]]. destruct Ho as [Hn _].
  apply (simpson_nonneg _ r); try assumption; [lia|].
  intros o _. left. apply cof_cen_pos; [exact Hs|apply hod_obs_pos].
Qed.

Lemma cacciato_sat_nonneg c p b : valid_mass c -> valid_obs c b -> valid_cacciato p ->
  at_least_minus_one (ca_A_sat p) -> nonneg_occ c (compute_hod_sat c (Cacciato p)) b.
Proof.
  intros Hm Ho [_ Hs] HA j m Hj Hlt. simpl. unfold cacciato_sat.
  destruct (obs_geometric c b j Ho Hj) as [r [[Hr Hr2] G]]. destruct Ho as [Hn _].
  assert (0 <= simpson (hs_nobs (c_set c)) (COF_sat c p b j m) (hod_obs (c_set c) b j)).
  { apply (simpson_nonneg _ r); try assumption; [lia|].
    intros o _. apply cof_sat_nonneg; [exact Hs|apply mass_pos; assumption]. }
  destruct (ca_A_sat p) as [a|]; simpl; [|assumption]. specialize (HA a eq_refl). nra.
Qed.

Lemma analytic_nonneg c md b : is_cacciato md = false ->
  within_unit (amp_cen md) -> at_least_minus_one (amp_sat md) ->
  nonneg_occ c (compute_hod_cen c md) b /\ nonneg_occ c (compute_hod_sat c md) b.
Proof.
  intros Hc HA HS.
  assert (D : forall A N, at_least_minus_one A -> 0 <= N -> 0 <= decorate_sat A N).
  { intros A N HA' HN. destruct A as [a|]; simpl; [|exact HN]. specialize (HA' a eq_refl). nra. }
  split; intros j m _ _; destruct md as [p|p|p|p|p]; try discriminate; simpl in *;
    try (apply decorate_cen_range; try assumption; try apply step_range; apply erf_cen_range);
    apply D; try assumption; try apply fpow_ge0.
  - unfold simple_sat. apply Rmult_le_pos; [|apply fpow_ge0].
    apply decorate_cen_range; [apply step_range|exact HA].
  - unfold zhai_sat. apply Rmult_le_pos; [apply fpow_ge0|left; apply exp_pos].
Qed.

Lemma obs_func_split c p b j o :
  obs_func c p b j o = obs_func_cen c p b j o + obs_func_sat c p b j o.
Proof.
  unfold obs_func, obs_func_cen, obs_func_sat, obs_func_of. rewrite <- simpson_plus.
  apply simpson_pw. intros m. unfold COF, cof, COF_cen, COF_sat, Rdiv. ring.
Qed.

Lemma star_split c md b i m :
  stellar_fraction c md b i m = stellar_fraction_cen c md b i m + stellar_fraction_sat c md b i m.
Proof.
  unfold stellar_fraction, stellar_fraction_cen, stellar_fraction_sat, stellar_fraction_of.
  destruct md; try ring. unfold unit_scale.
  rewrite (z_interp_pw c Extrapolate (fun b0 j => star_frac c (COF c p) b0 j m)
     (fun b0 j => star_frac c (COF_cen c p) b0 j m + star_frac c (COF_sat c p) b0 j m)).
  - rewrite z_interp_plus. destruct (String.eqb _ _); ring.
  - intros j. unfold star_frac. unfold Rdiv. rewrite <- Rmult_plus_distr_r. f_equal.
    rewrite <- simpson_plus. apply simpson_pw. intros o. unfold COF, cof, COF_cen, COF_sat. ring.
Qed.

Lemma obs_func_nonneg c p b j o : valid_z c -> valid_mass c -> valid_hmf c -> valid_cacciato p ->
  (b < zbins (c_set c))%nat -> (j < nz (c_set c))%nat ->
  0 <= obs_func_cen c p b j o /\ 0 <= obs_func_sat c p b j o.
Proof.
  intros Hz Hm Hh [Hs Hn] Hb Hj. destruct (Hm) as (Hnm & r & [Hr Hr2] & G).
  split; apply (simpson_nonneg _ r); try assumption; intros m Hlt;
    pose proof (mass_pos c m Hm Hlt) as Hp;
    (unfold Rdiv; apply Rmult_le_pos; [apply Rmult_le_pos|left; apply Rinv_0_lt_compat, Hp]);
    try (apply dndlnm_int_nonneg; assumption).
  - left. apply cof_cen_pos; [exact Hs|apply hod_obs_pos].
  - apply cof_sat_nonneg; assumption.
Qed.

Lemma star_nonneg c md b i m : valid_z c -> valid_mass c -> 0 <= c_h c ->
  (forall p, md = Cacciato p -> valid_cacciato p /\ valid_obs c b) ->
  (b < zbins (c_set c))%nat -> in_range c b i -> (m < c_nm c)%nat ->
  0 <= stellar_fraction_cen c md b i m /\ 0 <= stellar_fraction_sat c md b i m.
Proof.
  intros Hz Hm Hh Hp Hb Hr Hlt.
  assert (U : forall x, 0 <= x -> 0 <= unit_scale c x).
  { intros x Hx. unfold unit_scale. destruct (String.eqb _ _); [|exact Hx].
    apply Rmult_le_pos; assumption. }
  unfold stellar_fraction_cen, stellar_fraction_sat, stellar_fraction_of.
  destruct md as [p|p|p|p|p]; try (split; lra).
  destruct (Hp p eq_refl) as [[Hs Hn] Ho].
  assert (P : forall sel : A4, (forall j o, 0 <= sel b j m o) ->
    0 <= z_interpolate c Extrapolate (fun b0 j => star_frac c sel b0 j m) b i).
  { intros sel Hsel. unfold z_interpolate. simpl. destruct Hz as (H2 & Hz & _). destruct Hr.
    apply interp_nonneg; try assumption; [apply Hz, Hb|].
    intros j Hj. unfold star_frac. apply div_ge0; [apply mass_pos; assumption|].
    destruct (obs_geometric c b j Ho Hj) as [r [[Hr1 Hr2] G]]. destruct Ho as [Hno _].
    apply (simpson_nonneg _ r); try assumption; [lia|].
    intros o _. apply Rmult_le_pos; [apply Hsel|left; apply hod_obs_pos]. }
  split; apply U, P; intros j o.
  - left. apply cof_cen_pos; [exact Hs|apply hod_obs_pos].
  - apply cof_sat_nonneg; [exact Hn|apply mass_pos; assumption].
Qed.

(** The central COF is the log-normal density: its integral between two observables
    is the difference of the normal distribution function. *)
Lemma erf_derive x : is_derive erf x (2 / sqrt PI * exp (- (x * x))).
Proof.
  unfold erf.
  apply (is_derive_ext (fun x => scal (2 / sqrt PI) (G x))).
  - intros t. reflexivity.
  - apply (is_derive_scal G x (2 / sqrt PI) (gauss x)). apply G_derive.
Qed.

Lemma cof_cen_RInt p m lo hi : 0 < ca_sigma p -> 0 < m -> 0 < lo -> lo <= hi ->
  RInt (fun o => cof_cen p o m) lo hi
  = 1 / 2 * (erf (log10 (hi / mean_obs_c p m) / (sqrt 2 * ca_sigma p))
             - erf (log10 (lo / mean_obs_c p m) / (sqrt 2 * ca_sigma p))).
Proof.
  intros Hs Hm Hlo Hhi. pose proof (mean_obs_pos p m Hm) as HO. set (O := mean_obs_c p m) in *.
  set (Fn := fun o => 1 / 2 * erf (log10 (o / O) / (sqrt 2 * ca_sigma p))).
  assert (S2 : 0 < sqrt 2) by (apply sqrt_lt_R0; lra).
  pose proof ln_ten_pos as HL. pose proof sqrtPI_pos as HP.
  assert (D : forall o, 0 < o -> is_derive Fn o (cof_cen p o m)).
  { intros o Ho. unfold Fn. evar_last.
    - apply (is_derive_scal (fun o => erf (log10 (o / O) / (sqrt 2 * ca_sigma p))) o (1/2)).
      apply (is_derive_comp erf (fun o => log10 (o / O) / (sqrt 2 * ca_sigma p))).
      + apply erf_derive.
      + unfold log10. auto_derive.
        * apply Rdiv_lt_0_compat; assumption.
        * reflexivity.
    - unfold cof_cen. fold O.
      unfold scal; simpl; unfold mult; simpl.
      rewrite sqrt_mult by (try lra; pose proof PI_RGT_0; lra).
      replace (- (log10 (o / O) * (log10 (o / O) * 1)) / (2 * (ca_sigma p * (ca_sigma p * 1))))
        with (- (log10 (o / O) / (sqrt 2 * ca_sigma p) * (log10 (o / O) / (sqrt 2 * ca_sigma p)))).
      + field. repeat split; try lra.
      + assert (E2 : sqrt 2 * sqrt 2 = 2) by (apply sqrt_sqrt; lra).
        replace (2 * (ca_sigma p * (ca_sigma p * 1))) with (sqrt 2 * sqrt 2 * (ca_sigma p * ca_sigma p)) by (rewrite E2; ring).
        field. split; lra. }
  assert (T : Fn hi - Fn lo = 1 / 2 * (erf (log10 (hi / O) / (sqrt 2 * ca_sigma p))
             - erf (log10 (lo / O) / (sqrt 2 * ca_sigma p)))) by (unfold Fn; ring).
  rewrite <- T. clear T.
  change (RInt (fun o => cof_cen p o m) lo hi = minus (Fn hi) (Fn lo)).
  apply is_RInt_unique.
  apply (is_RInt_derive (V := R_CompleteNormedModule) Fn (fun o => cof_cen p o m)).
  - intros o Ho. rewrite Rmin_left in Ho by exact Hhi. apply D. lra.
  - intros o Ho. rewrite Rmin_left in Ho by exact Hhi.
    apply (ex_derive_continuous (V := R_NormedModule)). unfold cof_cen, log10. fold O. auto_derive.
    assert (0 < o) by lra.
    split; [|split; [apply Rdiv_lt_0_compat; assumption|trivial]].
    apply Rgt_not_eq. repeat apply Rmult_lt_0_compat; try assumption.
    apply sqrt_lt_R0. pose proof PI_RGT_0. lra.
Qed.

Lemma mean_obs_at_Mchar p : mean_obs_c p (pow10 (ca_log10_m_ch p))
  = pow10 (ca_log10_obs_norm_c p) * Rpower 2 (ca_g2 p - ca_g1 p).
Proof.
  unfold mean_obs_c, M_char, Obs_norm_c. pose proof (pow10_pos (ca_log10_m_ch p)).
  unfold Rdiv. rewrite Rinv_r by lra. rewrite fpow_one, Rmult_1_r.
  rewrite fpow_pos by lra. replace (1 + 1) with 2 by ring. f_equal.
  replace (ca_g2 p - ca_g1 p) with (- (ca_g1 p - ca_g2 p)) by ring. rewrite Rpower_Ropp. reflexivity.
Qed.

(** Low-mass slope g1, high-mass slope g2: the exact relation between two masses. *)
Lemma mean_obs_ratio p m m' : 0 < m -> 0 < m' ->
  mean_obs_c p m' / mean_obs_c p m
  = Rpower (m' / m) (ca_g1 p)
    / Rpower ((pow10 (ca_log10_m_ch p) + m') / (pow10 (ca_log10_m_ch p) + m)) (ca_g1 p - ca_g2 p).
Proof.
  intros Hm Hm'. unfold mean_obs_c, M_char, Obs_norm_c.
  pose proof (pow10_pos (ca_log10_m_ch p)) as HM. set (M := pow10 (ca_log10_m_ch p)) in *.
  pose proof (pow10_pos (ca_log10_obs_norm_c p)) as HO. set (O := pow10 (ca_log10_obs_norm_c p)) in *.
  assert (0 < m / M) by (apply Rdiv_lt_0_compat; assumption).
  assert (0 < m' / M) by (apply Rdiv_lt_0_compat; assumption).
  rewrite !fpow_pos by lra.
  assert (E : forall a b x, 0 < a -> 0 < b -> Rpower (a / b) x = Rpower a x / Rpower b x).
  { intros a b x Ha Hb. unfold Rdiv. unfold Rpower at 1.
    rewrite ln_mult by (try assumption; apply Rinv_0_lt_compat, Hb).
    rewrite ln_Rinv by exact Hb. rewrite Rmult_plus_distr_l, exp_plus.
    f_equal. rewrite <- Ropp_mult_distr_r. rewrite exp_Ropp. reflexivity. }
  replace (1 + m / M) with ((M + m) / M) by (field; lra).
  replace (1 + m' / M) with ((M + m') / M) by (field; lra).
  rewrite !E by lra.
  assert (forall a x, Rpower a x <> 0) by (intros a x; apply Rgt_not_eq, exp_pos).
  field. repeat split; try apply H1; lra.
Qed.

Lemma phi_star_at_pivot p : phi_star_s p (pow10 (ca_pivot p)) = pow10 (ca_b0 p).
Proof. unfold phi_star_s. rewrite log10_pow10. f_equal. ring. Qed.

Lemma phi_star_log p m : log10 (phi_star_s p m)
  = ca_b0 p + ca_b1 p * (log10 m - ca_pivot p) + ca_b2 p * (log10 m - ca_pivot p) ^ 2.
Proof. unfold phi_star_s. apply log10_pow10. Qed.

(** Satellite COF: modified Schechter function of O / O_s. *)
Lemma cof_sat_schechter p m x : 0 < ca_norm_s p -> 0 < m -> 0 < x ->
  cof_sat p (x * (ca_norm_s p * mean_obs_c p m)) m * (ca_norm_s p * mean_obs_c p m)
  = phi_star_s p m * Rpower x (ca_alpha_s p) * exp (- Rpower x (ca_beta_s p)).
Proof.
  intros Hs Hm Hx. unfold cof_sat.
  pose proof (mean_obs_pos p m Hm) as HO. set (O := ca_norm_s p * mean_obs_c p m).
  assert (0 < O) by (apply Rmult_lt_0_compat; assumption).
  replace (x * O / O) with x by (field; lra). rewrite !fpow_pos by exact Hx. field. lra.
Qed.

(** ** Grids *)
Lemma obs_ends_plain s b j : hs_file s = None -> (2 <= hs_nobs s)%nat ->
  hod_obs s b j 0 = pow10 (nth b (hs_obs_min s) 0) /\
  hod_obs s b j (hs_nobs s - 1) = pow10 (nth b (hs_obs_max s) 0).
Proof.
  intros Hf Hn. unfold hod_obs, log_obs_min, log_obs_max. rewrite Hf.
  split; [apply logspace_first; lia|apply logspace_last; exact Hn].
Qed.

Lemma obs_ends_file s d j z lo hi b : hs_file s = Some d -> (2 <= hs_nobs s)%nat ->
  nth_error d j = Some (z, lo, hi) -> 0 < lo -> 0 < hi ->
  hod_z s b j = z /\ hod_obs s b j 0 = lo /\ hod_obs s b j (hs_nobs s - 1) = hi.
Proof.
  intros Hf Hn Hd Hlo Hhi. unfold hod_obs, log_obs_min, log_obs_max, hod_z. rewrite Hf.
  rewrite (nth_error_nth d j (0, 0, 0) Hd). simpl.
  split; [reflexivity|]. split.
  - rewrite logspace_first by lia. apply pow10_log10, Hlo.
  - rewrite logspace_last by exact Hn. apply pow10_log10, Hhi.
Qed.

Lemma obs_increasing s b j : (2 <= hs_nobs s)%nat -> log_obs_min s b j < log_obs_max s b j ->
  increasing (hs_nobs s) (hod_obs s b j).
Proof. intros Hn H. apply logspace_incr; assumption. Qed.

Lemma nth_combine {A B} (l : list A) (l' : list B) n d d' :
  (n < List.length l)%nat -> (n < List.length l')%nat ->
  nth n (combine l l') (d, d') = (nth n l d, nth n l' d').
Proof.
  revert l' n. induction l as [|x l IH]; intros [|y l'] [|n] H H'; simpl in *; try lia; try reflexivity.
  apply IH; lia.
Qed.

Lemma zbins_min s : hs_file s = None ->
  zbins s = Nat.min (List.length (hs_zmin s)) (List.length (hs_zmax s)).
Proof. intros H. unfold zbins. rewrite H. apply combine_length. Qed.

Lemma z_ends s b : hs_file s = None -> (2 <= hs_nz s)%nat -> (b < zbins s)%nat ->
  hod_z s b 0 = nth b (hs_zmin s) 0 /\ hod_z s b (hs_nz s - 1) = nth b (hs_zmax s) 0 /\
  (nth b (hs_zmin s) 0 < nth b (hs_zmax s) 0 -> increasing (hs_nz s) (hod_z s b)).
Proof.
  intros Hf Hn Hb. rewrite zbins_min in Hb by exact Hf. unfold hod_z, nz. rewrite Hf.
  rewrite (nth_combine (hs_zmin s) (hs_zmax s) b 0 0) by lia.
  split; [apply linspace_first'; lia|]. split; [apply linspace_last; exact Hn|].
  intros H. apply linspace_incr; assumption.
Qed.

Lemma bins_agree s : hs_file s = None ->
  List.length (hs_zmin s) = List.length (hs_obs_min s) -> List.length (hs_zmax s) = List.length (hs_obs_min s) ->
  zbins s = nbins s.
Proof.
  intros Hf H1 H2. rewrite zbins_min by exact Hf. unfold nbins. rewrite Hf, H1, H2. apply Nat.min_id.
Qed.

Definition short_z : hod_settings :=
  {| hs_file := None; hs_obs_min := [8; 9; 10]; hs_obs_max := [9; 10; 11];
     hs_zmin := [0]; hs_zmax := [1/5]; hs_nz := 15; hs_nobs := 300; hs_unit := "1/h^2" |}.

Lemma bins_disagree : nbins short_z = 3%nat /\ zbins short_z = 1%nat.
Proof. split; reflexivity. Qed.

Lemma valid_hod_nonneg c md b : valid_mass c -> valid_hod c md b ->
  nonneg_occ c (compute_hod_cen c md) b /\ nonneg_occ c (compute_hod_sat c md) b.
Proof.
  intros Hm Hv. destruct (is_cacciato md) eqn:E.
  - destruct md as [p| | | |]; try discriminate. destruct Hv as (H1 & H2 & H3 & H4).
    split; [apply cacciato_cen_nonneg|apply cacciato_sat_nonneg]; assumption.
  - apply analytic_nonneg; [exact E| |]; destruct md; try discriminate; apply Hv.
Qed.

Lemma api_fractions_range c md b i : valid_z c -> valid_mass c -> valid_hmf c ->
  (b < zbins (c_set c))%nat -> in_range c b i -> valid_hod c md b -> populated c md b ->
  0 <= f_c c md b i <= 1 /\ 0 <= f_s c md b i <= 1.
Proof.
  intros Hz Hm Hh Hb Hr Hv Hp. destruct (valid_hod_nonneg c md b Hm Hv).
  apply fraction_bounds; assumption.
Qed.

Lemma fractions_outside c md b i : out_of_range c b i -> f_c c md b i = 0 /\ f_s c md b i = 0.
Proof. intros H. split; apply z_interp_outside, H. Qed.

Lemma avg_mass_outside c md b i : out_of_range c b i ->
  avg_halo_mass c md b i = 0 /\ avg_halo_mass_cen c md b i = 0 /\ avg_halo_mass_sat c md b i = 0.
Proof. intros H. repeat split; apply z_interp_outside, H. Qed.

Lemma api_bias_bounds c md lo hi b i : valid_z c -> valid_mass c -> valid_hmf c ->
  (b < zbins (c_set c))%nat -> in_range c b i -> valid_hod c md b -> populated c md b ->
  (forall i m, (i < c_nzv c)%nat -> (m < c_nm c)%nat -> lo <= c_bias c i m <= hi) ->
  lo <= galaxy_linear_bias c md b i <= hi.
Proof.
  intros Hz Hm Hh Hb Hr Hv Hp Hbi. destruct (valid_hod_nonneg c md b Hm Hv).
  apply bias_bounds; assumption.
Qed.

Lemma api_bias_const c md k b i : valid_z c -> valid_mass c -> valid_hmf c ->
  (b < zbins (c_set c))%nat -> in_range c b i -> valid_hod c md b -> populated c md b ->
  (forall i m, (i < c_nzv c)%nat -> (m < c_nm c)%nat -> c_bias c i m = k) ->
  galaxy_linear_bias c md b i = k.
Proof.
  intros Hz Hm Hh Hb Hr Hv Hp Hbi.
  pose proof (api_bias_bounds c md k k b i Hz Hm Hh Hb Hr Hv Hp) as H.
  apply Rle_antisym; apply H; intros i' m' Hi' Hm'; rewrite Hbi by assumption; split; apply Rle_refl.
Qed.

Lemma api_density_nonneg c md b i : valid_z c -> valid_mass c -> valid_hmf c ->
  (b < zbins (c_set c))%nat -> in_range c b i -> valid_hod c md b ->
  0 <= number_density_cen c md b i /\ 0 <= number_density_sat c md b i.
Proof.
  intros Hz Hm Hh Hb [H0 H1] Hv. destruct (valid_hod_nonneg c md b Hm Hv) as [Hc Hs].
  pose proof Hz as (Hn & Hi & _).
  split; unfold number_density_cen, number_density_sat, z_interpolate; simpl;
    apply interp_nonneg; try assumption; try (apply Hi, Hb);
    intros j Hj; apply mass_integral_nonneg; assumption.
Qed.

Lemma sampled_density c md b j i Nc Ns n : valid_z c -> valid_mass c -> (3 <= c_nm c)%nat ->
  sampled c md b j i Nc Ns n ->
  is_parabola (fun M => Nc M * n M) -> is_parabola (fun M => Ns M * n M) ->
  number_density_cen c md b i
    = RInt (fun M => Nc M * n M) (c_mass c 0%nat) (c_mass c (c_nm c - 1)%nat) /\
  number_density_sat c md b i
    = RInt (fun M => Ns M * n M) (c_mass c 0%nat) (c_mass c (c_nm c - 1)%nat).
Proof.
  intros Hz Hm Hn (Hb & Hj & Hi & E & H) P1 P2.
  apply (densities_RInt c md Nc Ns n b j i); try assumption; intros m Hlt; apply H, Hlt.
Qed.

Lemma sampled_bias c md b j i Nc Ns n bf : valid_z c -> valid_mass c -> (3 <= c_nm c)%nat ->
  sampled c md b j i Nc Ns n ->
  (forall m, (m < c_nm c)%nat -> c_bias c i m = bf (c_mass c m)) ->
  is_parabola (fun M => Nc M * bf M * n M) -> is_parabola (fun M => Ns M * bf M * n M) ->
  galaxy_linear_bias_cen c md b i
    = RInt (fun M => Nc M * bf M * n M) (c_mass c 0%nat) (c_mass c (c_nm c - 1)%nat)
      / number_density c md b i /\
  galaxy_linear_bias_sat c md b i
    = RInt (fun M => Ns M * bf M * n M) (c_mass c 0%nat) (c_mass c (c_nm c - 1)%nat)
      / number_density c md b i.
Proof.
  intros Hz Hm Hn (Hb & Hj & Hi & E & H) Hbi P1 P2.
  apply (bias_RInt c md Nc Ns n bf b j i); try assumption; intros m Hlt; apply H, Hlt.
Qed.

Lemma sampled_mass c md b j i Nc Ns n : valid_z c -> valid_mass c -> (3 <= c_nm c)%nat ->
  sampled c md b j i Nc Ns n ->
  is_parabola (fun M => Nc M * n M * M) -> is_parabola (fun M => Ns M * n M * M) ->
  avg_halo_mass_cen c md b i
    = RInt (fun M => Nc M * n M * M) (c_mass c 0%nat) (c_mass c (c_nm c - 1)%nat) /\
  avg_halo_mass_sat c md b i
    = RInt (fun M => Ns M * n M * M) (c_mass c 0%nat) (c_mass c (c_nm c - 1)%nat).
Proof.
  intros Hz Hm Hn (Hb & Hj & Hi & E & H) P1 P2.
  apply (avg_mass_RInt c md Nc Ns n b j i); try assumption; intros m Hlt; apply H, Hlt.
Qed.

(** f_c at a tabulated redshift is the ratio of the number densities there. *)
Lemma fractions_ratio c md b j i : valid_z c -> (b < zbins (c_set c))%nat -> (j < nz (c_set c))%nat ->
  c_zvec c i = hod_z (c_set c) b j ->
  f_c c md b i = number_density_cen c md b i / number_density c md b i /\
  f_s c md b i = number_density_sat c md b i / number_density c md b i.
Proof.
  intros Hz Hb Hj E. unfold f_c, f_s, number_density_cen, number_density_sat, number_density.
  rewrite !(z_interp_node c _ _ b i j) by assumption. split; reflexivity.
Qed.

Lemma hod_call_ok c md n f : hod_cen_call c md = Ok (n, f) ->
  n = zbins (c_set c) /\ forall b i m, f b i m = hod_cen c md b i m.
Proof.
  unfold hod_cen_call. destruct (rows_cen c md) as [r|e]; simpl; [|discriminate].
  destruct (Nat.ltb _ _); [discriminate|]. intros H. injection H as <- <-. split; reflexivity.
Qed.

Lemma hod_call_bins c md n f : hs_file (c_set c) = None ->
  List.length (hs_zmin (c_set c)) = List.length (hs_obs_min (c_set c)) ->
  List.length (hs_zmax (c_set c)) = List.length (hs_obs_min (c_set c)) ->
  hod_cen_call c md = Ok (n, f) -> n = List.length (hs_obs_min (c_set c)).
Proof.
  intros Hf H1 H2 H. destruct (hod_call_ok _ _ _ _ H) as [-> _].
  rewrite bins_agree by assumption. unfold nbins. rewrite Hf. reflexivity.
Qed.

Lemma hod_call_scalar c p : List.length (zh_sigma p) = 1%nat -> List.length (zh_log10_Mmin p) = 1%nat ->
  (2 <= zbins (c_set c))%nat -> hod_cen_call c (Zheng p) = Err "IndexError".
Proof.
  intros H1 H2 Hb. unfold hod_cen_call, rows_cen, bcast. rewrite H1, H2. simpl.
  destruct (Nat.ltb_spec 1 (zbins (c_set c))); [reflexivity|lia].
Qed.

Lemma hod_call_short : exists c md f, hod_cen_call c md = Ok (1%nat, f) /\
  List.length (hs_obs_min (c_set c)) = 3%nat.
Proof.
  exists {| c_set := short_z; c_nm := 0; c_mass := fun _ => 1; c_nzv := 0; c_zvec := fun _ => 0;
            c_dndlnm := fun _ _ => 0; c_bias := fun _ _ => 0; c_h := 1 |}.
  exists (Simple {| si_log10_Mmin := [12; 12; 12]; si_log10_Msat := [13; 13; 13]; si_alpha := [1; 1; 1];
            si_A_cen := None; si_A_sat := None |}).
  eexists. split; reflexivity.
Qed.

(** ** The Cacciato conditional functions are the advertised distributions *)
Lemma mean_obs_dpl p M : 0 < M -> mean_obs_c p M = ca_mean p M.
Proof.
  intros HM. unfold mean_obs_c, ca_mean, double_power_law, Obs_norm_c, M_char.
  pose proof (pow10_pos (ca_log10_m_ch p)).
  assert (0 < M / pow10 (ca_log10_m_ch p)) by (apply Rdiv_lt_0_compat; assumption).
  rewrite !fpow_pos by lra. unfold Rdiv. f_equal.
  replace (ca_g2 p - ca_g1 p) with (- (ca_g1 p - ca_g2 p)) by ring. rewrite Rpower_Ropp. reflexivity.
Qed.

Lemma cof_cen_lognormal p o M : 0 < o -> 0 < M -> ca_sigma p <> 0 ->
  cof_cen p o M = lognormal10 (ca_sigma p) (ca_mean p M) o.
Proof.
  intros Ho HM Hs. unfold cof_cen, lognormal10. rewrite <- mean_obs_dpl by exact HM.
  rewrite log10_div by (try assumption; apply mean_obs_pos, HM).
  change ten with 10. f_equal.
  - pose proof ln_ten_pos. change ten with 10 in *. assert (0 < sqrt (2 * PI)).
    { apply sqrt_lt_R0. pose proof PI_RGT_0. lra. }
    field. repeat split; try assumption; lra.
Qed.

Lemma cof_sat_is_schechter p o M : 0 < o -> 0 < M -> 0 < ca_norm_s p ->
  cof_sat p o M = schechter (sat_norm p M) (ca_alpha_s p) (ca_beta_s p) (ca_norm_s p * ca_mean p M) o.
Proof.
  intros Ho HM Hs. unfold cof_sat, schechter. rewrite <- mean_obs_dpl by exact HM.
  pose proof (mean_obs_pos p M HM).
  assert (0 < ca_norm_s p * mean_obs_c p M) by (apply Rmult_lt_0_compat; assumption).
  rewrite !fpow_pos by (apply Rdiv_lt_0_compat; assumption). reflexivity.
Qed.

Lemma cacciato_cen_node c p b j i m : valid_z c -> valid_mass c -> (1 <= hs_nobs (c_set c))%nat ->
  ca_sigma p <> 0 -> ca_A_cen p = None ->
  (b < zbins (c_set c))%nat -> (j < nz (c_set c))%nat -> (m < c_nm c)%nat ->
  c_zvec c i = hod_z (c_set c) b j ->
  hod_cen c (Cacciato p) b i m
  = simpson (hs_nobs (c_set c)) (fun o => lognormal10 (ca_sigma p) (ca_mean p (c_mass c m)) (hod_obs (c_set c) b j o))
      (hod_obs (c_set c) b j).
Proof.
  intros Hz Hm Hno Hs HA Hb Hj Hlt E. unfold hod_cen. rewrite (z_interp_node c _ _ b i j) by assumption.
  simpl. unfold cacciato_cen. rewrite HA. simpl. apply simpson_pw. intros o. unfold COF_cen.
  apply cof_cen_lognormal; [apply hod_obs_pos|apply mass_pos; assumption|exact Hs].
Qed.

Lemma cacciato_sat_node c p b j i m : valid_z c -> valid_mass c ->
  0 < ca_norm_s p -> ca_A_sat p = None ->
  (b < zbins (c_set c))%nat -> (j < nz (c_set c))%nat -> (m < c_nm c)%nat ->
  c_zvec c i = hod_z (c_set c) b j ->
  hod_sat c (Cacciato p) b i m
  = simpson (hs_nobs (c_set c)) (fun o => schechter (sat_norm p (c_mass c m)) (ca_alpha_s p) (ca_beta_s p)
        (ca_norm_s p * ca_mean p (c_mass c m)) (hod_obs (c_set c) b j o))
      (hod_obs (c_set c) b j).
Proof.
  intros Hz Hm Hs HA Hb Hj Hlt E. unfold hod_sat. rewrite (z_interp_node c _ _ b i j) by assumption.
  simpl. unfold cacciato_sat. rewrite HA. simpl. apply simpson_pw. intros o. unfold COF_sat.
  apply cof_sat_is_schechter; [apply hod_obs_pos|apply mass_pos; assumption|exact Hs].
Qed.

Lemma obs_func_node c p b j i o : valid_z c -> valid_mass c -> valid_cacciato p ->
  (i < c_nzv c)%nat -> c_zvec c i = hod_z (c_set c) b j ->
  obs_func_cen c p b j o
  = simpson (c_nm c) (fun m => lognormal10 (ca_sigma p) (ca_mean p (c_mass c m)) (hod_obs (c_set c) b j o)
                        * (c_dndlnm c i m / c_mass c m)) (c_mass c) /\
  obs_func_sat c p b j o
  = simpson (c_nm c) (fun m => schechter (sat_norm p (c_mass c m)) (ca_alpha_s p) (ca_beta_s p)
                          (ca_norm_s p * ca_mean p (c_mass c m)) (hod_obs (c_set c) b j o)
                        * (c_dndlnm c i m / c_mass c m)) (c_mass c).
Proof.
  intros Hz Hm [Hs Hn] Hi E. assert (Hnm : (1 <= c_nm c)%nat) by apply Hm.
  unfold obs_func_cen, obs_func_sat, obs_func_of. split; apply simpson_ext; try exact Hnm; try reflexivity;
    intros m Hlt; rewrite (dndlnm_at_node c b j i m) by assumption.
  - unfold COF_cen. rewrite cof_cen_lognormal; [|apply hod_obs_pos|apply mass_pos; assumption|lra].
    unfold Rdiv. ring.
  - unfold COF_sat. rewrite cof_sat_is_schechter; [|apply hod_obs_pos|apply mass_pos; assumption|exact Hn].
    unfold Rdiv. ring.
Qed.

Lemma star_node c p b j i m : valid_z c -> valid_mass c -> valid_cacciato p ->
  (b < zbins (c_set c))%nat -> (j < nz (c_set c))%nat -> (m < c_nm c)%nat ->
  c_zvec c i = hod_z (c_set c) b j -> hs_unit (c_set c) = "1/h"%string ->
  stellar_fraction_cen c (Cacciato p) b i m
  = simpson (hs_nobs (c_set c)) (fun o => hod_obs (c_set c) b j o
       * lognormal10 (ca_sigma p) (ca_mean p (c_mass c m)) (hod_obs (c_set c) b j o))
      (hod_obs (c_set c) b j) / c_mass c m.
Proof.
  intros Hz Hm [Hs Hn] Hb Hj Hlt E HU. unfold stellar_fraction_cen, stellar_fraction_of, unit_scale.
  rewrite HU. change (String.eqb "1/h" unit_h2) with false. cbv iota. rewrite (z_interp_node c _ _ b i j) by assumption. unfold star_frac. f_equal.
  apply simpson_pw. intros o. unfold COF_cen.
  rewrite cof_cen_lognormal; [ring|apply hod_obs_pos|apply mass_pos; assumption|lra].
Qed.

Lemma star_unit c c' p b i m : c_set c' = {| hs_file := hs_file (c_set c); hs_obs_min := hs_obs_min (c_set c);
     hs_obs_max := hs_obs_max (c_set c); hs_zmin := hs_zmin (c_set c); hs_zmax := hs_zmax (c_set c);
     hs_nz := hs_nz (c_set c); hs_nobs := hs_nobs (c_set c); hs_unit := "1/h^2" |} ->
  hs_unit (c_set c) = "1/h"%string -> c_mass c' = c_mass c -> c_zvec c' = c_zvec c ->
  stellar_fraction c' (Cacciato p) b i m = stellar_fraction c (Cacciato p) b i m * c_h c'.
Proof.
  intros E U EM EZ. unfold stellar_fraction, stellar_fraction_of, unit_scale. rewrite U, E.
  change (String.eqb "1/h" unit_h2) with false. cbv beta iota.
  cbn [hs_unit String.eqb unit_h2]. change (String.eqb "1/h^2" "1/h^2") with true. cbv iota. f_equal. unfold z_interpolate, star_frac, COF. rewrite E, EM, EZ. reflexivity.
Qed.

Lemma deco_preserves c md Ac As b j i m : valid_z c -> (b < zbins (c_set c))%nat -> (j < nz (c_set c))%nat ->
  c_zvec c i = hod_z (c_set c) b j -> within_unit Ac ->
  0 <= hod_cen c (with_decoration None As md) b i m <= 1 ->
  0 <= hod_cen c (with_decoration Ac As md) b i m <= 1.
Proof.
  intros Hz Hb Hj E HA. unfold hod_cen. rewrite !(z_interp_node c _ _ b i j) by assumption.
  destruct md; simpl; try (unfold cacciato_cen; simpl); intros H; apply decorate_cen_range; assumption.
Qed.

Lemma deco_sat_zero c md Ac b i m :
  hod_sat c (with_decoration Ac (Some 0) md) b i m = hod_sat c (with_decoration Ac None md) b i m.
Proof. rewrite deco_sat_scale. ring. Qed.
