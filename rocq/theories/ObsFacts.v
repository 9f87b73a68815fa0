(** Observable functions integrate to number densities; limits of the central distribution. *)
From Coq Require Import FunctionalExtensionality.
From Coquelicot Require Import Coquelicot.
From Verif Require Import Base Spec Quad Interp Erf HodModel HodSpec ObsModel ObsSpec
  BaseFacts QuadFacts InterpFacts ErfFacts NumFacts HodFacts HodFacts2.
Open Scope R_scope.

(** ** Simpson's rule as a weighted sum *)
Definition delta (i k : nat) : R := if Nat.eqb k i then 1 else 0.

Lemma simpson_sum n k (g : nat -> nat -> R) x :
  simpson n (fun i => sumR k (fun l => g l i)) x = sumR k (fun l => simpson n (g l) x).
Proof.
  induction k as [|k IH]; simpl; [apply simpson_zero|].
  rewrite <- IH. apply simpson_plus.
Qed.

Lemma sum_delta n f k : (k < n)%nat -> sumR n (fun i => f i * delta i k) = f k.
Proof.
  intros Hk.
  assert (Z : forall q, (q <= k)%nat -> sumR q (fun i => f i * delta i k) = 0).
  { intros q Hq. rewrite <- (sumR_zero q). apply sumR_ext. intros i Hi. unfold delta.
    destruct (Nat.eqb_spec k i); [lia|ring]. }
  assert (S1 : forall q, (k < q)%nat -> sumR q (fun i => f i * delta i k) = f k).
  { induction q as [|q IH]; intros Hq; [lia|]. simpl. unfold delta at 2. destruct (Nat.eqb_spec k q).
    - subst q. rewrite Z by lia. ring.
    - rewrite IH by lia. ring. }
  apply S1, Hk.
Qed.

Lemma simpson_weights n f x : (1 <= n)%nat ->
  simpson n f x = sumR n (fun i => f i * simpson n (delta i) x).
Proof.
  intros Hn.
  transitivity (simpson n (fun k => sumR n (fun i => f i * delta i k)) x).
  - apply simpson_ext; [exact Hn| |reflexivity]. intros k Hk. symmetry. apply sum_delta, Hk.
  - rewrite (simpson_sum n n (fun i k => f i * delta i k) x).
    apply sumR_ext. intros i _. apply (simpson_scal n (f i) (delta i)).
Qed.

Lemma simpson_swap n m (F : nat -> nat -> R) x y : (1 <= m)%nat ->
  simpson n (fun o => simpson m (fun k => F k o) y) x = simpson m (fun k => simpson n (F k) x) y.
Proof.
  intros Hm.
  assert (E : forall o, simpson m (fun k => F k o) y = sumR m (fun k => F k o * simpson m (delta k) y))
    by (intros o; apply simpson_weights, Hm).
  rewrite (simpson_weights m (fun k => simpson n (F k) x) y Hm).
  assert (E2 : simpson n (fun o => simpson m (fun k => F k o) y) x
             = simpson n (fun o => sumR m (fun k => F k o * simpson m (delta k) y)) x).
  { f_equal. apply functional_extensionality. exact E. }
  rewrite E2, (simpson_sum n m (fun k o => F k o * simpson m (delta k) y) x).
  apply sumR_ext. intros k _. rewrite Rmult_comm, <- simpson_scal. f_equal.
  apply functional_extensionality. intros o. ring.
Qed.

Lemma simpson_derive n (g g' : nat -> R -> R) x t : (1 <= n)%nat ->
  (forall i, (i < n)%nat -> is_derive (g i) t (g' i t)) ->
  is_derive (fun u => simpson n (fun i => g i u) x) t (simpson n (fun i => g' i t) x).
Proof.
  intros Hn Hd. rewrite (simpson_weights n (fun i => g' i t) x Hn).
  apply (is_derive_ext (fun u => sumR n (fun i => g i u * simpson n (delta i) x))).
  { intros u. symmetry. apply (simpson_weights n (fun i => g i u) x Hn). }
  assert (P : forall q, (q <= n)%nat ->
    is_derive (fun u => sumR q (fun i => g i u * simpson n (delta i) x)) t
              (sumR q (fun i => g' i t * simpson n (delta i) x))).
  { induction q as [|q IH]; intros Hq; simpl.
    - apply (is_derive_const (V := R_NormedModule) 0).
    - apply (is_derive_plus (V := R_NormedModule)); [apply IH; lia|].
      apply (is_derive_scal_l (V := R_NormedModule)). apply Hd. lia. }
  apply P. lia.
Qed.

(** ** Densities *)
Lemma obs_integral c (cofx : A4) b j : (1 <= c_nm c)%nat ->
  simpson (hs_nobs (c_set c)) (obs_func_of c cofx b j) (hod_obs (c_set c) b j)
  = mass_integral c (fun b j m => simpson (hs_nobs (c_set c)) (cofx b j m) (hod_obs (c_set c) b j)) b j.
Proof.
  intros Hn. unfold obs_func_of, mass_integral.
  rewrite (simpson_swap (hs_nobs (c_set c)) (c_nm c)
     (fun m o => cofx b j m o * dndlnm_int c b j m / c_mass c m)) by exact Hn.
  f_equal. apply functional_extensionality. intros m.
  unfold Rdiv. rewrite Rmult_assoc, Rmult_comm, <- simpson_scal. f_equal.
  apply functional_extensionality. intros o. ring.
Qed.

Lemma obs_cen_density c p b j : (1 <= c_nm c)%nat -> ca_A_cen p = None ->
  simpson (hs_nobs (c_set c)) (obs_func_cen c p b j) (hod_obs (c_set c) b j) = ncen c (Cacciato p) b j.
Proof.
  intros Hn HA. unfold obs_func_cen. rewrite obs_integral by exact Hn. unfold ncen.
  unfold mass_integral, compute_hod_cen, cacciato_cen. rewrite HA. reflexivity.
Qed.

Lemma obs_sat_density c p b j : (1 <= c_nm c)%nat -> ca_A_sat p = None ->
  simpson (hs_nobs (c_set c)) (obs_func_sat c p b j) (hod_obs (c_set c) b j) = nsat c (Cacciato p) b j.
Proof.
  intros Hn HA. unfold obs_func_sat. rewrite obs_integral by exact Hn. unfold nsat.
  unfold mass_integral, compute_hod_sat, cacciato_sat. rewrite HA. reflexivity.
Qed.

Lemma obs_sat_density_decorated c p b j a : (1 <= c_nm c)%nat -> ca_A_sat p = Some a ->
  (1 + a) * simpson (hs_nobs (c_set c)) (obs_func_sat c p b j) (hod_obs (c_set c) b j) = nsat c (Cacciato p) b j.
Proof.
  intros Hn HA. unfold obs_func_sat. rewrite obs_integral by exact Hn. unfold nsat.
  unfold mass_integral, compute_hod_sat, cacciato_sat. rewrite HA, <- simpson_scal. f_equal.
  apply functional_extensionality. intros m. rewrite decorate_sat_scale. unfold Rdiv. ring.
Qed.

Lemma obs_density c p b j : (1 <= c_nm c)%nat -> ca_A_cen p = None -> ca_A_sat p = None ->
  simpson (hs_nobs (c_set c)) (obs_func c p b j) (hod_obs (c_set c) b j) = ntot c (Cacciato p) b j.
Proof.
  intros Hn Hc Hs.
  transitivity (simpson (hs_nobs (c_set c)) (fun o => obs_func_cen c p b j o + obs_func_sat c p b j o)
                        (hod_obs (c_set c) b j)).
  - f_equal. apply functional_extensionality. intros o. apply obs_func_split.
  - rewrite simpson_plus, obs_cen_density, obs_sat_density by assumption.
    unfold ncen, nsat, ntot, compute_hod. rewrite <- mass_integral_plus. reflexivity.
Qed.

(** ** Spectra accessors *)
Lemma sp_some c md f s sel : (exists v, sp_scaled c md f s sel = Some v) <-> is_cacciato md = true /\ f = true.
Proof.
  unfold sp_scaled, sp_obs. destruct md; simpl; try (split; [intros [v E]; discriminate|intros [E _]; discriminate]).
  destruct f; split; try (intros [v E]; discriminate); try (intros [_ E]; discriminate).
  - intros _; split; reflexivity.
  - intros _. eexists; reflexivity.
Qed.

Lemma cum_derive c p (n : nat -> R) x : valid_mass c -> 0 < ca_sigma p ->
  is_derive (centrals_below (c_nm c) (c_mass c) n p) x
    (simpson (c_nm c) (fun m => ln 10 * pow10 x * lognormal10 (ca_sigma p) (ca_mean p (c_mass c m)) (pow10 x)
                                * n m / c_mass c m) (c_mass c)).
Proof.
  intros Hm Hs. unfold centrals_below.
  apply (simpson_derive (c_nm c)
    (fun m u => 1 / 2 * (1 + erf ((u - log10 (ca_mean p (c_mass c m))) / (sqrt 2 * ca_sigma p)))
                             * n m / c_mass c m)
    (fun m u => ln 10 * pow10 u * lognormal10 (ca_sigma p) (ca_mean p (c_mass c m)) (pow10 u)
                                * n m / c_mass c m)); [apply Hm|].
  intros m Hlt. set (L := log10 (ca_mean p (c_mass c m))). set (w := n m / c_mass c m).
  apply (is_derive_ext (fun u => w * (1 / 2 * (1 + erf ((u - L) / (sqrt 2 * ca_sigma p)))))).
  { intros u. unfold w, Rdiv. match goal with |- ?a = ?b => change (@eq R a b) end. ring. }
  assert (S2 : 0 < sqrt 2) by (apply sqrt_lt_R0; lra).
  evar_last.
  - apply (is_derive_scal (fun u => 1 / 2 * (1 + erf ((u - L) / (sqrt 2 * ca_sigma p)))) x w).
    apply (is_derive_scal (fun u => 1 + erf ((u - L) / (sqrt 2 * ca_sigma p))) x (1/2)).
    apply (is_derive_plus (V := R_NormedModule) (fun _ => 1)).
    + apply (is_derive_const (V := R_NormedModule) 1).
    + apply (is_derive_comp erf (fun u => (u - L) / (sqrt 2 * ca_sigma p))); [apply erf_derive|].
      auto_derive; [trivial|reflexivity].
  - unfold scal, plus, zero; simpl; unfold mult; simpl.
    unfold lognormal10. rewrite log10_pow10. fold L. pose proof (pow10_pos x) as Hp. pose proof ln_ten_pos as HL.
    change ten with 10 in HL. pose proof sqrtPI_pos as HP.
    rewrite sqrt_mult by (try lra; pose proof PI_RGT_0; lra).
    replace (- (x - L) ^ 2 / (2 * ca_sigma p ^ 2))
      with (- ((x - L) / (sqrt 2 * ca_sigma p) * ((x - L) / (sqrt 2 * ca_sigma p)))).
    + unfold w. simpl. field. repeat split; try lra. pose proof (mass_pos c m Hm Hlt). lra.
    + assert (E2 : sqrt 2 * sqrt 2 = 2) by (apply sqrt_sqrt; lra).
      replace (2 * ca_sigma p ^ 2) with (sqrt 2 * sqrt 2 * (ca_sigma p * ca_sigma p)) by (rewrite E2; ring).
      field. split; lra.
Qed.

Lemma sp_cen_per_dex c p s b j i o v : valid_z (with_settings c s) -> valid_mass c -> 0 < ca_sigma p ->
  (i < c_nzv c)%nat -> c_zvec c i = hod_z s b j ->
  sp_obs_func_cen c (Cacciato p) true s = Some v ->
  is_derive (centrals_below (c_nm c) (c_mass c) (c_dndlnm c i) p) (log10 (hod_obs s b j o)) (v b j o).
Proof.
  intros Hz Hm Hs Hi Ez E. unfold sp_obs_func_cen, sp_scaled in E. simpl in E. injection E as <-.
  evar_last; [apply cum_derive; [exact Hm|exact Hs]|].
  pose proof (hod_obs_pos s b j o) as Ho. rewrite pow10_log10 by exact Ho.
  unfold obs_func_cen, obs_func_of. simpl. rewrite <- simpson_scal.
  apply simpson_ext; [apply Hm| |reflexivity]. intros m Hlt.
  rewrite (dndlnm_at_node (with_settings c s) b j i m) by assumption.
  unfold COF_cen. simpl. rewrite cof_cen_lognormal; [unfold Rdiv; change ten with 10; ring|exact Ho| |lra].
  apply (mass_pos c m Hm Hlt).
Qed.

Lemma sp_sat_value c p s b j i o v : valid_z (with_settings c s) -> valid_mass c -> 0 < ca_norm_s p ->
  (i < c_nzv c)%nat -> c_zvec c i = hod_z s b j ->
  sp_obs_func_sat c (Cacciato p) true s = Some v ->
  v b j o = simpson (c_nm c) (fun m => ln 10 * hod_obs s b j o
      * schechter (sat_norm p (c_mass c m)) (ca_alpha_s p) (ca_beta_s p)
                  (ca_norm_s p * ca_mean p (c_mass c m)) (hod_obs s b j o)
      * c_dndlnm c i m / c_mass c m) (c_mass c).
Proof.
  intros Hz Hm Hs Hi Ez E. unfold sp_obs_func_sat, sp_scaled in E. simpl in E. injection E as <-.
  pose proof (hod_obs_pos s b j o) as Ho.
  unfold obs_func_sat, obs_func_of. simpl. rewrite <- simpson_scal.
  apply simpson_ext; [apply Hm| |reflexivity]. intros m Hlt.
  rewrite (dndlnm_at_node (with_settings c s) b j i m) by assumption.
  unfold COF_sat. simpl. rewrite cof_sat_is_schechter; [unfold Rdiv; change ten with 10; ring|exact Ho| |exact Hs].
  apply (mass_pos c m Hm Hlt).
Qed.

Lemma sp_split c md f s b j o v vc vs : sp_obs_func c md f s = Some v ->
  sp_obs_func_cen c md f s = Some vc -> sp_obs_func_sat c md f s = Some vs ->
  v b j o = vc b j o + vs b j o.
Proof.
  unfold sp_obs_func, sp_obs_func_cen, sp_obs_func_sat, sp_scaled.
  destruct (sp_obs c md f s) as [[c' p]|]; [|discriminate].
  intros E1 E2 E3. injection E1 as <-. injection E2 as <-. injection E3 as <-.
  rewrite obs_func_split. ring.
Qed.

Lemma sp_nonneg c p s b j o vc vs : valid_z (with_settings c s) -> valid_mass c -> valid_hmf (with_settings c s) ->
  valid_cacciato p -> (b < zbins s)%nat -> (j < nz s)%nat ->
  sp_obs_func_cen c (Cacciato p) true s = Some vc -> sp_obs_func_sat c (Cacciato p) true s = Some vs ->
  0 <= vc b j o /\ 0 <= vs b j o.
Proof.
  intros Hz Hm Hh Hp Hb Hj E1 E2. unfold sp_obs_func_cen, sp_obs_func_sat, sp_scaled in *. simpl in *.
  injection E1 as <-. injection E2 as <-.
  destruct (obs_func_nonneg (with_settings c s) p b j o Hz Hm Hh Hp Hb Hj) as [P1 P2].
  pose proof (hod_obs_pos s b j o) as Ho. pose proof ln_ten_pos as HL.
  assert (0 <= ln ten * hod_obs s b j o) by (apply Rmult_le_pos; lra).
  split; apply Rmult_le_pos; assumption.
Qed.

Lemma sp_axes c p s vo vz : sp_obs_func_obs c (Cacciato p) true s = Some vo ->
  sp_obs_func_z c (Cacciato p) true s = Some vz -> vo = hod_obs s /\ vz = hod_z s.
Proof. intros E1 E2. injection E1 as <-. injection E2 as <-. split; reflexivity. Qed.

(** Integrating the Spectra function over ln O / ln 10 with the galaxy grid recovers the density. *)
Lemma sp_density c p b j v : valid_mass c -> ca_A_cen p = None -> ca_A_sat p = None ->
  sp_obs_func c (Cacciato p) true (c_set c) = Some v ->
  simpson (hs_nobs (c_set c)) (fun o => v b j o / (ln 10 * hod_obs (c_set c) b j o)) (hod_obs (c_set c) b j)
  = ntot c (Cacciato p) b j.
Proof.
  intros Hm Hc Hs E. unfold sp_obs_func, sp_scaled in E. simpl in E. injection E as <-.
  rewrite <- obs_density by (try assumption; apply Hm). f_equal.
  apply functional_extensionality. intros o.
  replace (with_settings c (c_set c)) with c by (destruct c; reflexivity).
  change ten with 10. field. pose proof ln_ten_pos as HL. change ten with 10 in HL.
  pose proof (hod_obs_pos (c_set c) b j o). split; lra.
Qed.

(** ** The central distribution: slopes, asymptotes, normalisation *)
Lemma erf_lower x : 1 - 4 / PI * exp (- (x * x)) <= erf x * erf x.
Proof.
  unfold erf. fold (G x). pose proof sqrtPI_pos as Hs. pose proof PI_RGT_0 as Hp.
  replace (2 / sqrt PI * G x * (2 / sqrt PI * G x)) with (4 / PI * (G x * G x)).
  2:{ rewrite <- (sqrt_sqrt PI) at 1 by lra. field. lra. }
  pose proof (F_const x) as E. rewrite F_zero in E. unfold F in E.
  assert (HH : H x <= exp (- (x * x))).
  { unfold H. replace (exp (- (x * x))) with (RInt (fun _ => exp (- (x * x))) 0 1).
    2:{ rewrite RInt_const. unfold scal; simpl; unfold mult; simpl. ring. }
    apply RInt_le; [lra|apply h_int|apply ex_RInt_const|].
    intros t _. unfold h. pose proof (one_sq t) as H1. assert (H2 : 0 <= t * t) by nra.
    apply Rmult_le_reg_r with (1 + t * t); [exact H1|].
    unfold Rdiv. rewrite Rmult_assoc, Rinv_l, Rmult_1_r by lra.
    apply Rle_trans with (exp (- (x * x))).
    - destruct (Req_dec (x * x * (t * t)) 0) as [Z|Z].
      + right. f_equal. lra.
      + left. apply exp_increasing. assert (0 <= x * x) by nra.
        assert (0 <= x * x * (t * t)) by (apply Rmult_le_pos; assumption). lra.
    - pose proof (exp_pos (- (x * x))). nra. }
  replace (G x * G x) with (PI / 4 - H x) by lra.
  replace (4 / PI * (PI / 4 - H x)) with (1 - 4 / PI * H x) by (field; lra).
  assert (0 < 4 / PI) by (apply Rdiv_lt_0_compat; lra). nra.
Qed.

Lemma erf_lim eps : 0 < eps -> exists X, 0 < X /\ forall x, X <= x -> 1 - eps < erf x.
Proof.
  intros He. pose proof PI_RGT_0 as Hp.
  assert (H4 : 0 < 4 / PI) by (apply Rdiv_lt_0_compat; lra).
  set (d := eps / (4 / PI)). assert (Hd : 0 < d) by (apply Rdiv_lt_0_compat; assumption).
  exists (Rmax 1 (1 - ln d)). split; [apply Rlt_le_trans with 1; [lra|apply Rmax_l]|].
  intros x Hx. pose proof (Rmax_l 1 (1 - ln d)). pose proof (Rmax_r 1 (1 - ln d)).
  assert (x <= x * x) by nra.
  assert (exp (- (x * x)) < d).
  { rewrite <- (exp_ln d Hd). apply exp_increasing. lra. }
  pose proof (erf_lower x) as L. pose proof (erf_bounds x) as [B1 B2].
  assert (0 < erf x) by (rewrite <- erf_0; apply erf_incr; lra).
  assert (4 / PI * exp (- (x * x)) < eps).
  { replace eps with (4 / PI * d) by (unfold d; field; lra). apply Rmult_lt_compat_l; assumption. }
  nra.
Qed.

Lemma cen_norm p M eps : 0 < ca_sigma p -> 0 < M -> 0 < eps ->
  exists lo0 hi0, 0 < lo0 < hi0 /\ forall lo hi, 0 < lo <= lo0 -> hi0 <= hi ->
    1 - eps < RInt (fun o => cof_cen p o M) lo hi <= 1.
Proof.
  intros Hs HM He. pose proof (mean_obs_pos p M HM) as HO. set (O := mean_obs_c p M) in *.
  destruct (erf_lim eps He) as [X [HX Hlim]].
  assert (S2 : 0 < sqrt 2) by (apply sqrt_lt_R0; lra).
  set (w := sqrt 2 * ca_sigma p). assert (Hw : 0 < w) by (apply Rmult_lt_0_compat; assumption).
  assert (Hpw : 1 < pow10 (X * w)).
  { rewrite <- pow10_0. unfold pow10, Rpower. apply exp_increasing. pose proof ln_ten_pos.
    assert (0 < X * w) by (apply Rmult_lt_0_compat; assumption). nra. }
  exists (O / pow10 (X * w)), (O * pow10 (X * w)).
  assert (Hlo0 : 0 < O / pow10 (X * w)) by (apply Rdiv_lt_0_compat; lra).
  assert (Hlt : O / pow10 (X * w) < O).
  { apply Rmult_lt_reg_r with (pow10 (X * w)); [lra|]. unfold Rdiv. rewrite Rmult_assoc, Rinv_l by lra. nra. }
  split; [split; [exact Hlo0|nra]|].
  intros lo hi [Hlo1 Hlo2] Hhi.
  rewrite cof_cen_RInt by (try assumption; nra). fold O. fold w.
  assert (E1 : X <= log10 (hi / O) / w).
  { apply Rmult_le_reg_r with w; [exact Hw|]. unfold Rdiv at 1. rewrite Rmult_assoc, Rinv_l, Rmult_1_r by lra.
    rewrite <- (log10_pow10 (X * w)). apply log10_le; [apply pow10_pos|].
    apply Rmult_le_reg_r with O; [exact HO|]. unfold Rdiv. rewrite Rmult_assoc, Rinv_l by lra. lra. }
  assert (E2 : X <= - (log10 (lo / O) / w)).
  { apply Rmult_le_reg_r with w; [exact Hw|].
    replace (- (log10 (lo / O) / w) * w) with (- log10 (lo / O)) by (field; lra).
    apply Ropp_le_cancel. rewrite Ropp_involutive, <- (log10_pow10 (- (X * w))).
    apply log10_le; [apply Rdiv_lt_0_compat; assumption|].
    replace (pow10 (- (X * w))) with (/ pow10 (X * w)) by (unfold pow10; symmetry; apply Rpower_Ropp).
    apply Rmult_le_reg_r with O; [exact HO|]. unfold Rdiv in *. rewrite Rmult_assoc, Rinv_l by lra. lra. }
  pose proof (Hlim _ E1) as L1. pose proof (Hlim _ E2) as L2. rewrite erf_odd in L2.
  pose proof (erf_bounds (log10 (hi / O) / w)). pose proof (erf_bounds (log10 (lo / O) / w)).
  change (sqrt 2 * ca_sigma p) with w. lra.
Qed.

Lemma cen_median p M lo hi : 0 < ca_sigma p -> 0 < M -> 0 < lo -> ca_mean p M / lo = hi / ca_mean p M -> lo <= ca_mean p M ->
  RInt (fun o => cof_cen p o M) lo (ca_mean p M) = RInt (fun o => cof_cen p o M) (ca_mean p M) hi.
Proof.
  intros Hs HM Hlo E Hle. pose proof (mean_obs_pos p M HM) as HO. rewrite <- mean_obs_dpl in * by exact HM.
  set (O := mean_obs_c p M) in *.
  assert (Eh : hi = O * (O / lo)) by (rewrite E; field; lra).
  assert (H1 : 1 <= O / lo).
  { apply Rmult_le_reg_r with lo; [exact Hlo|]. unfold Rdiv. rewrite Rmult_assoc, Rinv_l by lra. lra. }
  assert (Hhi : O <= hi) by (rewrite Eh; nra).
  rewrite !cof_cen_RInt by (try assumption; lra). fold O.
  replace (O / O) with 1 by (field; lra).
  assert (L1 : log10 1 = 0) by (unfold log10; rewrite ln_1; unfold Rdiv; ring).
  assert (Z : 0 / (sqrt 2 * ca_sigma p) = 0) by (unfold Rdiv; ring).
  rewrite L1, Z, erf_0, <- E.
  replace (lo / O) with (/ (O / lo)) by (field; lra).
  assert (LI : log10 (/ (O / lo)) = - log10 (O / lo)).
  { unfold log10. rewrite ln_Rinv by lra. unfold Rdiv. ring. }
  rewrite LI.
  replace (- log10 (O / lo) / (sqrt 2 * ca_sigma p)) with (- (log10 (O / lo) / (sqrt 2 * ca_sigma p)))
    by (unfold Rdiv; ring).
  rewrite erf_odd. match goal with |- ?a = ?b => change (@eq R a b) end. ring.
Qed.

Lemma ln1_bounds x y : 0 < x -> x <= y -> 0 <= ln (1 + y) - ln (1 + x) <= ln y - ln x.
Proof.
  intros Hx Hy. split.
  - destruct Hy as [Hy|<-]; [|lra]. assert (ln (1 + x) < ln (1 + y)) by (apply ln_increasing; lra). lra.
  - destruct Hy as [Hy|<-]; [|lra].
    assert (ln ((1 + y) * x) < ln ((1 + x) * y)) by (apply ln_increasing; nra).
    rewrite !ln_mult in H by lra. lra.
Qed.

Lemma ca_mean_exp p M : 0 < M -> ca_mean p M = exp (ln (pow10 (ca_log10_obs_norm_c p))
  + ca_g1 p * ln (M / pow10 (ca_log10_m_ch p)) + (ca_g2 p - ca_g1 p) * ln (1 + M / pow10 (ca_log10_m_ch p))).
Proof.
  intros HM. unfold ca_mean, double_power_law, Rpower. rewrite !exp_plus, exp_ln by apply pow10_pos. reflexivity.
Qed.

Lemma ca_mean_slopes p M M' : 0 < M -> M <= M' ->
  Rpower (M' / M) (Rmin (ca_g1 p) (ca_g2 p)) <= ca_mean p M' / ca_mean p M
  <= Rpower (M' / M) (Rmax (ca_g1 p) (ca_g2 p)).
Proof.
  intros HM Hle. rewrite !ca_mean_exp by lra.
  pose proof (pow10_pos (ca_log10_m_ch p)) as H1. set (M1 := pow10 (ca_log10_m_ch p)) in *.
  set (x := M / M1). set (y := M' / M1).
  assert (Hx : 0 < x) by (apply Rdiv_lt_0_compat; lra).
  assert (Hxy : x <= y) by (apply Rmult_le_compat_r; [left; apply Rinv_0_lt_compat; lra|exact Hle]).
  pose proof (ln1_bounds x y Hx Hxy) as [B1 B2].
  assert (EL : ln (M' / M) = ln y - ln x).
  { unfold x, y, Rdiv. rewrite !ln_mult, !ln_Rinv by (try apply Rinv_0_lt_compat; lra). ring. }
  assert (ED : forall a b, exp a / exp b = exp (a + - b)) by (intros a b; rewrite exp_plus, exp_Ropp; reflexivity).
  rewrite ED. unfold Rpower. rewrite EL.
  set (D := ln y - ln x) in *. set (d := ln (1 + y) - ln (1 + x)) in *.
  assert (E : ln (pow10 (ca_log10_obs_norm_c p)) + ca_g1 p * ln y + (ca_g2 p - ca_g1 p) * ln (1 + y)
    + - (ln (pow10 (ca_log10_obs_norm_c p)) + ca_g1 p * ln x + (ca_g2 p - ca_g1 p) * ln (1 + x))
    = ca_g1 p * (D - d) + ca_g2 p * d) by (unfold D, d; ring).
  rewrite E.
  assert (mono : forall u v, u <= v -> exp u <= exp v).
  { intros u v [Huv| ->]; [left; apply exp_increasing, Huv|right; reflexivity]. }
  pose proof (Rmin_l (ca_g1 p) (ca_g2 p)). pose proof (Rmin_r (ca_g1 p) (ca_g2 p)).
  pose proof (Rmax_l (ca_g1 p) (ca_g2 p)). pose proof (Rmax_r (ca_g1 p) (ca_g2 p)).
  split; apply mono; nra.
Qed.

Lemma ca_mean_incr p M M' : 0 < ca_g1 p -> 0 < ca_g2 p -> 0 < M -> M < M' -> ca_mean p M < ca_mean p M'.
Proof.
  intros G1 G2 HM Hlt. destruct (ca_mean_slopes p M M' HM (Rlt_le _ _ Hlt)) as [L _].
  assert (P : 0 < ca_mean p M) by (rewrite ca_mean_exp by exact HM; apply exp_pos).
  assert (1 < Rpower (M' / M) (Rmin (ca_g1 p) (ca_g2 p))).
  { rewrite <- exp_0. unfold Rpower. apply exp_increasing. apply Rmult_lt_0_compat.
    - apply Rmin_glb_lt; assumption.
    - rewrite <- ln_1. apply ln_increasing; [lra|].
      apply Rmult_lt_reg_r with M; [exact HM|]. unfold Rdiv. rewrite Rmult_assoc, Rinv_l by lra. lra. }
  assert (1 < ca_mean p M' / ca_mean p M) by lra.
  apply Rmult_lt_reg_r with (/ ca_mean p M); [apply Rinv_0_lt_compat, P|].
  rewrite Rinv_r by lra. assumption.
Qed.

Lemma ln1_small u : 0 < u -> 0 < ln (1 + u) < u.
Proof.
  intros Hu. split.
  - rewrite <- ln_1. apply ln_increasing; lra.
  - rewrite <- (ln_exp u) at 2. apply ln_increasing; [lra|]. apply exp_ineq1. lra.
Qed.

Lemma exp_near eps : 0 < eps -> exists d, 0 < d /\ forall v, Rabs v < d -> Rabs (exp v - 1) < eps.
Proof.
  intros He. pose proof (derivable_continuous_pt exp 0 (derivable_pt_exp 0)) as C.
  destruct (C eps He) as [a [Ha HC]]. exists a. split; [exact Ha|]. intros v Hv.
  destruct (Req_dec v 0) as [->|Hne].
  - rewrite exp_0. unfold Rminus. rewrite Rplus_opp_r, Rabs_R0. exact He.
  - specialize (HC v). unfold dist in HC; simpl in HC. unfold R_dist in HC. rewrite exp_0 in HC.
    apply HC. split; [split; [exact I|lra]|]. rewrite Rminus_0_r. exact Hv.
Qed.

Lemma ca_mean_low p eps : 0 < eps -> exists M0, 0 < M0 /\ forall M, 0 < M <= M0 ->
  Rabs (ca_mean p M / (pow10 (ca_log10_obs_norm_c p) * Rpower (M / pow10 (ca_log10_m_ch p)) (ca_g1 p)) - 1) < eps.
Proof.
  intros He. destruct (exp_near eps He) as [d [Hd HE]].
  pose proof (pow10_pos (ca_log10_m_ch p)) as H1. set (M1 := pow10 (ca_log10_m_ch p)).
  set (k := Rabs (ca_g2 p - ca_g1 p) + 1). assert (Hk : 0 < k) by (pose proof (Rabs_pos (ca_g2 p - ca_g1 p)); unfold k; lra).
  exists (M1 * (d / k)). assert (0 < d / k) by (apply Rdiv_lt_0_compat; assumption).
  split; [apply Rmult_lt_0_compat; assumption|]. intros M [HM Hle].
  assert (Hx : 0 < M / M1) by (apply Rdiv_lt_0_compat; assumption).
  replace (ca_mean p M / (pow10 (ca_log10_obs_norm_c p) * Rpower (M / M1) (ca_g1 p)))
    with (Rpower (1 + M / M1) (ca_g2 p - ca_g1 p)).
  2:{ unfold ca_mean, double_power_law. fold M1. pose proof (pow10_pos (ca_log10_obs_norm_c p)).
      assert (0 < Rpower (M / M1) (ca_g1 p)) by apply exp_pos. field. split; lra. }
  unfold Rpower. apply HE. destruct (ln1_small (M / M1) Hx) as [L1 L2].
  rewrite Rabs_mult, (Rabs_pos_eq (ln (1 + M / M1))) by lra.
  assert (M / M1 <= d / k).
  { apply Rmult_le_reg_r with M1; [exact H1|]. unfold Rdiv at 1. rewrite Rmult_assoc, Rinv_l by (unfold M1; lra). lra. }
  assert (k * (d / k) = d) by (field; lra). pose proof (Rabs_pos (ca_g2 p - ca_g1 p)).
  unfold k in *. nra.
Qed.

Lemma ca_mean_high p eps : 0 < eps -> exists M0, 0 < M0 /\ forall M, M0 <= M ->
  Rabs (ca_mean p M / (pow10 (ca_log10_obs_norm_c p) * Rpower (M / pow10 (ca_log10_m_ch p)) (ca_g2 p)) - 1) < eps.
Proof.
  intros He. destruct (exp_near eps He) as [d [Hd HE]].
  pose proof (pow10_pos (ca_log10_m_ch p)) as H1. set (M1 := pow10 (ca_log10_m_ch p)) in *.
  set (k := Rabs (ca_g2 p - ca_g1 p) + 1). assert (Hk : 0 < k) by (pose proof (Rabs_pos (ca_g2 p - ca_g1 p)); unfold k; lra).
  exists (M1 * (k / d)). assert (H0 : 0 < k / d) by (apply Rdiv_lt_0_compat; assumption).
  split; [apply Rmult_lt_0_compat; assumption|]. intros M Hle.
  assert (HM : 0 < M) by (assert (0 < M1 * (k / d)) by (apply Rmult_lt_0_compat; assumption); lra).
  assert (Hx : 0 < M / M1) by (apply Rdiv_lt_0_compat; assumption).
  assert (Hu : 0 < M1 / M) by (apply Rdiv_lt_0_compat; assumption).
  replace (ca_mean p M / (pow10 (ca_log10_obs_norm_c p) * Rpower (M / M1) (ca_g2 p)))
    with (Rpower (1 + M1 / M) (ca_g2 p - ca_g1 p)).
  2:{ unfold ca_mean, double_power_law. fold M1. pose proof (pow10_pos (ca_log10_obs_norm_c p)).
      assert (0 < Rpower (M / M1) (ca_g2 p)) by apply exp_pos.
      replace (1 + M / M1) with (M / M1 * (1 + M1 / M)) by (field; lra).
      rewrite <- Rpower_mult_distr by lra.
      replace (ca_g2 p) with (ca_g1 p + (ca_g2 p - ca_g1 p)) at 4 by ring. rewrite Rpower_plus.
      assert (forall a b, Rpower a b <> 0) by (intros; apply Rgt_not_eq, exp_pos).
      field. repeat split; try apply H3; lra. }
  unfold Rpower. apply HE. destruct (ln1_small (M1 / M) Hu) as [L1 L2].
  rewrite Rabs_mult, (Rabs_pos_eq (ln (1 + M1 / M))) by lra.
  assert (M1 / M <= d / k).
  { apply Rmult_le_reg_r with (M * (k / d)); [apply Rmult_lt_0_compat; assumption|].
    replace (M1 / M * (M * (k / d))) with (M1 * (k / d)) by (field; lra).
    replace (d / k * (M * (k / d))) with M by (field; lra). exact Hle. }
  assert (k * (d / k) = d) by (field; lra). pose proof (Rabs_pos (ca_g2 p - ca_g1 p)).
  unfold k in *. nra.
Qed.

(** ** The same at the API's own redshifts *)
Lemma api_obs_density c p b j i : valid_z c -> valid_mass c -> (b < zbins (c_set c))%nat -> (j < nz (c_set c))%nat ->
  c_zvec c i = hod_z (c_set c) b j -> ca_A_cen p = None -> ca_A_sat p = None ->
  let O := hod_obs (c_set c) b j in
  simpson (hs_nobs (c_set c)) (obs_func_cen c p b j) O = number_density_cen c (Cacciato p) b i /\
  simpson (hs_nobs (c_set c)) (obs_func_sat c p b j) O = number_density_sat c (Cacciato p) b i /\
  simpson (hs_nobs (c_set c)) (obs_func c p b j) O = number_density c (Cacciato p) b i.
Proof.
  intros Hz Hm Hb Hj E Hc Hs O. unfold O, number_density_cen, number_density_sat, number_density.
  rewrite !(z_interp_node c Extrapolate _ b i j) by assumption.
  repeat split; [apply obs_cen_density|apply obs_sat_density|apply obs_density]; try assumption; apply Hm.
Qed.

Lemma api_obs_decorated c p b j i a : valid_z c -> valid_mass c -> (b < zbins (c_set c))%nat -> (j < nz (c_set c))%nat ->
  c_zvec c i = hod_z (c_set c) b j -> ca_A_sat p = Some a ->
  number_density_sat c (Cacciato p) b i
  = (1 + a) * simpson (hs_nobs (c_set c)) (obs_func_sat c p b j) (hod_obs (c_set c) b j).
Proof.
  intros Hz Hm Hb Hj E Ha. unfold number_density_sat.
  rewrite (z_interp_node c Extrapolate _ b i j) by assumption.
  symmetry. apply obs_sat_density_decorated; [apply Hm|exact Ha].
Qed.

Lemma api_sp_density c p b j i v : valid_z c -> valid_mass c -> (b < zbins (c_set c))%nat -> (j < nz (c_set c))%nat ->
  c_zvec c i = hod_z (c_set c) b j -> ca_A_cen p = None -> ca_A_sat p = None ->
  sp_obs_func c (Cacciato p) true (c_set c) = Some v ->
  simpson (hs_nobs (c_set c)) (fun o => v b j o / (ln 10 * hod_obs (c_set c) b j o)) (hod_obs (c_set c) b j)
  = number_density c (Cacciato p) b i.
Proof.
  intros Hz Hm Hb Hj E Hc Hs Ev. unfold number_density.
  rewrite (z_interp_node c Extrapolate _ b i j) by assumption. apply sp_density; assumption.
Qed.

Lemma sp_none c md f s : (sp_obs_func c md f s = None <-> is_cacciato md = false \/ f = false) /\
  (sp_obs_func_cen c md f s = None <-> is_cacciato md = false \/ f = false) /\
  (sp_obs_func_sat c md f s = None <-> is_cacciato md = false \/ f = false) /\
  (sp_obs_func_obs c md f s = None <-> is_cacciato md = false \/ f = false) /\
  (sp_obs_func_z c md f s = None <-> is_cacciato md = false \/ f = false).
Proof.
  unfold sp_obs_func, sp_obs_func_cen, sp_obs_func_sat, sp_obs_func_obs, sp_obs_func_z, sp_scaled, sp_obs.
  destruct md, f; simpl; repeat split; intros H; try discriminate; try (left; reflexivity); try (right; reflexivity);
    try reflexivity; destruct H; discriminate.
Qed.
