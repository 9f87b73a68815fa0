(** Vocabulary of the HOD properties: what a well-formed request is and the
    mathematical objects the API is compared with.  No model code here. *)
From Verif Require Import Base Spec HodModel.
Open Scope R_scope.

(** The redshift nodes of every bin can be interpolated. *)
Definition valid_z (c : hod_ctx) : Prop :=
  (2 <= nz (c_set c))%nat /\
  (forall b, (b < zbins (c_set c))%nat -> increasing (nz (c_set c)) (hod_z (c_set c) b)) /\
  (2 <= c_nzv c)%nat /\ increasing (c_nzv c) (c_zvec c).

(** The mass grid hmf produces: log-uniform with spacing at most log10 2. *)
Definition valid_mass (c : hod_ctx) : Prop :=
  (1 <= c_nm c)%nat /\ exists r, 1 < r <= 2 /\ log_uniform (c_nm c) r (c_mass c).

(** Non-negative mass function, and HOD redshifts inside the range where it is tabulated. *)
Definition valid_hmf (c : hod_ctx) : Prop :=
  (forall i m, (i < c_nzv c)%nat -> (m < c_nm c)%nat -> 0 <= c_dndlnm c i m) /\
  (forall b j, (b < zbins (c_set c))%nat -> (j < nz (c_set c))%nat ->
     c_zvec c 0%nat <= hod_z (c_set c) b j <= c_zvec c (c_nzv c - 1)%nat).

(** The output redshift i lies inside the tabulated range of bin b / outside it. *)
Definition in_range (c : hod_ctx) (b i : nat) : Prop :=
  hod_z (c_set c) b 0 <= c_zvec c i <= hod_z (c_set c) b (nz (c_set c) - 1).
Definition out_of_range (c : hod_ctx) (b i : nat) : Prop :=
  c_zvec c i < hod_z (c_set c) b 0 \/ hod_z (c_set c) b (nz (c_set c) - 1) < c_zvec c i.

(** Non-negative occupations in bin b. *)
Definition nonneg_occ (c : hod_ctx) (N : nat -> nat -> nat -> R) (b : nat) : Prop :=
  forall j m, (j < nz (c_set c))%nat -> (m < c_nm c)%nat -> 0 <= N b j m.

(** The same model with other assembly-bias amplitudes (A_cen, A_sat). *)
Definition with_decoration (Ac As : option R) (md : hod_model) : hod_model :=
  match md with
  | Cacciato p => Cacciato {|
      ca_log10_obs_norm_c := ca_log10_obs_norm_c p; ca_log10_m_ch := ca_log10_m_ch p;
      ca_g1 := ca_g1 p; ca_g2 := ca_g2 p; ca_sigma := ca_sigma p; ca_norm_s := ca_norm_s p;
      ca_pivot := ca_pivot p; ca_alpha_s := ca_alpha_s p; ca_beta_s := ca_beta_s p;
      ca_b0 := ca_b0 p; ca_b1 := ca_b1 p; ca_b2 := ca_b2 p; ca_A_cen := Ac; ca_A_sat := As |}
  | Simple p => Simple {| si_log10_Mmin := si_log10_Mmin p; si_log10_Msat := si_log10_Msat p;
      si_alpha := si_alpha p; si_A_cen := Ac; si_A_sat := As |}
  | Zehavi p => Zehavi {| si_log10_Mmin := si_log10_Mmin p; si_log10_Msat := si_log10_Msat p;
      si_alpha := si_alpha p; si_A_cen := Ac; si_A_sat := As |}
  | Zheng p => Zheng {| zh_log10_Mmin := zh_log10_Mmin p; zh_log10_M0 := zh_log10_M0 p;
      zh_log10_M1 := zh_log10_M1 p; zh_sigma := zh_sigma p; zh_alpha := zh_alpha p;
      zh_A_cen := Ac; zh_A_sat := As |}
  | Zhai p => Zhai {| zi_log10_Mmin := zi_log10_Mmin p; zi_log10_Msat := zi_log10_Msat p;
      zi_log10_Mcut := zi_log10_Mcut p; zi_sigma := zi_sigma p; zi_alpha := zi_alpha p;
      zi_A_cen := Ac; zi_A_sat := As |}
  end.

Definition is_cacciato (md : hod_model) : bool :=
  match md with Cacciato _ => true | _ => false end.

(** Assembly-bias amplitudes of a model. *)
Definition amp_cen (md : hod_model) : option R :=
  match md with
  | Cacciato p => ca_A_cen p | Simple p => si_A_cen p | Zehavi p => si_A_cen p
  | Zheng p => zh_A_cen p | Zhai p => zi_A_cen p end.
Definition amp_sat (md : hod_model) : option R :=
  match md with
  | Cacciato p => ca_A_sat p | Simple p => si_A_sat p | Zehavi p => si_A_sat p
  | Zheng p => zh_A_sat p | Zhai p => zi_A_sat p end.

(** Scatter and satellite slope of bin b (Simple and Zehavi have no scatter). *)
Definition scatter (md : hod_model) (b : nat) : R :=
  match md with
  | Zheng p => bin_par (zh_sigma p) b | Zhai p => bin_par (zi_sigma p) b
  | Cacciato p => ca_sigma p | _ => 0 end.
Definition slope (md : hod_model) (b : nat) : R :=
  match md with
  | Simple p => bin_par (si_alpha p) b | Zehavi p => bin_par (si_alpha p) b
  | Zheng p => bin_par (zh_alpha p) b | Zhai p => bin_par (zi_alpha p) b
  | Cacciato p => ca_alpha_s p end.

Definition within_unit (A : option R) : Prop := forall a, A = Some a -> -1 <= a <= 1.
Definition at_least_minus_one (A : option R) : Prop := forall a, A = Some a -> -1 <= a.

(** The observable grid of every (bin, redshift) is fine enough: spacing <= log10 2. *)
Definition valid_obs (c : hod_ctx) (b : nat) : Prop :=
  (2 <= hs_nobs (c_set c))%nat /\
  forall j, (j < nz (c_set c))%nat ->
    0 < log_obs_max (c_set c) b j - log_obs_min (c_set c) b j
      <= log10 2 * INR (hs_nobs (c_set c) - 1).

(** Log-normal central observable distribution: positive scatter; satellites:
    positive normalisation of their characteristic observable. *)
Definition valid_cacciato (p : cacciato_par) : Prop := 0 < ca_sigma p /\ 0 < ca_norm_s p.

(** What "non-negative model" means per HOD: assembly-bias amplitudes that keep the
    occupations non-negative; for Cacciato a positive scatter and satellite
    normalisation, an observable grid with spacing <= log10 2 and no central decoration
    (its centrals are not probabilities). *)
Definition valid_hod (c : hod_ctx) (md : hod_model) (b : nat) : Prop :=
  match md with
  | Cacciato p => valid_cacciato p /\ valid_obs c b /\ ca_A_cen p = None /\
                  at_least_minus_one (ca_A_sat p)
  | _ => within_unit (amp_cen md) /\ at_least_minus_one (amp_sat md)
  end.

(** The bin contains galaxies at every tabulated redshift (the code divides by this density). *)
Definition populated (c : hod_ctx) (md : hod_model) (b : nat) : Prop :=
  forall j, (j < nz (c_set c))%nat -> ntot c md b j <> 0.

(** At output redshift i, which is also the tabulated node j of bin b, the occupations
    are Nc(M), Ns(M) and the mass function is dn/dlnM = M n(M). *)
Definition sampled (c : hod_ctx) (md : hod_model) (b j i : nat) (Nc Ns n : R -> R) : Prop :=
  (b < zbins (c_set c))%nat /\ (j < nz (c_set c))%nat /\ (i < c_nzv c)%nat /\
  c_zvec c i = hod_z (c_set c) b j /\
  forall m, (m < c_nm c)%nat ->
    hod_cen c md b i m = Nc (c_mass c m) /\ hod_sat c md b i m = Ns (c_mass c m) /\
    c_dndlnm c i m = c_mass c m * n (c_mass c m).

(** Density in O of a variable whose log10 is normal with mean log10 O0 and scatter s. *)
Definition lognormal10 (s O0 o : R) : R :=
  1 / (o * ln 10 * s * sqrt (2 * PI)) * exp (- (log10 o - log10 O0) ^ 2 / (2 * s ^ 2)).

(** Double power law of the mean central observable with halo mass. *)
Definition double_power_law (O0 M1 g1 g2 M : R) : R :=
  O0 * Rpower (M / M1) g1 * Rpower (1 + M / M1) (g2 - g1).

(** Modified Schechter function in units of O / Os. *)
Definition schechter (phi alpha beta Os o : R) : R :=
  phi / Os * Rpower (o / Os) alpha * exp (- Rpower (o / Os) beta).

(** Mean central observable and satellite normalisation at halo mass M for Cacciato parameters. *)
Definition ca_mean (p : cacciato_par) (M : R) : R :=
  double_power_law (pow10 (ca_log10_obs_norm_c p)) (pow10 (ca_log10_m_ch p)) (ca_g1 p) (ca_g2 p) M.
Definition sat_norm (p : cacciato_par) (M : R) : R :=
  let x := log10 M - ca_pivot p in pow10 (ca_b0 p + ca_b1 p * x + ca_b2 p * x ^ 2).
