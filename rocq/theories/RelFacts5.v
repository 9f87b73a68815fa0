(** Witnesses for the relational properties. *)
From Coq Require Import FunctionalExtensionality.
From Coquelicot Require Import Coquelicot.
From Verif Require Import Base Spec Quad Interp HodModel HodSpec Dewiggle PkModel PkSpec BaseFacts QuadFacts
  InterpFacts NumFacts HodFacts HodFacts2 HodExample PkFacts PkFacts2 PkFacts3 PkFacts4 PkFacts5 PkExample
  RelSpec RelFacts RelFacts2 RelFacts3 RelFacts4.
Open Scope R_scope.

(** ** Redshifts of the HOD that are redshifts of both grids *)
Lemma rs_common n s S b :
  (2 <= nz (s_hod_set S))%nat -> (2 <= n)%nat -> (2 <= s_nz S)%nat ->
  increasing (s_nz S) (s_zvec S) -> increasing n (fun i => s_zvec S (s i)) ->
  (forall i, (i < n)%nat -> (s i < s_nz S)%nat) ->
  (forall j, (j < nz (s_hod_set S))%nat -> exists i, (i < n)%nat /\ s_zvec S (s i) = hod_z (s_hod_set S) b j) ->
  forall x r, power_spectrum x S = Ok r ->
  exists r', power_spectrum x (on_redshifts n s S) = Ok r' /\ forall i k, same_at r' b i k r b (s i) k.
Proof.
  intros Hn2 Hn Hz Hi Hi' Hs Hc x r H. apply rs_five; try assumption.
  intros j m Hj. destruct (Hc j Hj) as (i & Hlt & E). unfold dndlnm_int, interp1d.
  cbn [hctx ctx_of c_set c_nzv c_zvec c_dndlnm]. change (s_hod_set (on_redshifts n s S)) with (s_hod_set S). rewrite <- E.
  change (s_zvec S (s i)) with ((fun i => s_zvec S (s i)) i) at 1.
  etransitivity; [apply (interp_node n (fun i => s_zvec S (s i)) (fun i => s_dndlnm S (s i) m)); assumption|].
  symmetry. apply (interp_node (s_nz S) (s_zvec S) (fun i => s_dndlnm S i m)); try assumption. apply Hs, Hlt.
Qed.

(** ** The effect of another first wavenumber *)
Lemma wn_profile n s S z i m : s_nfw_cen S z 0%nat m <> 0 -> s_nfw_cen S z (s 0%nat) m <> 0 ->
  u_dm (on_wavenumbers n s S) z i m = u_dm S z (s i) m / u_dm S z (s 0%nat) m.
Proof. intros H H'. unfold u_dm. cbn [on_wavenumbers s_nfw_cen]. field. split; assumption. Qed.

Definition ex_drop : spectra := on_wavenumbers 2 (fun i => S i) ex_S.
Lemma ex_drop_halo : one_halo ex_drop (profile_mm ex_drop) (profile_mm ex_drop) 0 1 0 = 4 * one_halo ex_S (profile_mm ex_S) (profile_mm ex_S) 0 1 1.
Proof.
  unfold one_halo. change (s_nm ex_drop) with (s_nm ex_S). change (s_mass ex_drop) with (s_mass ex_S).
  rewrite <- simpson_scal. apply simpson_pw. intros m.
  change (profile_mm ex_drop) with (matter_profile ex_drop). change (profile_mm ex_S) with (matter_profile ex_S).
  unfold matter_profile. unfold ex_drop. rewrite wn_profile.
  - change (s_mass (on_wavenumbers 2 (fun i => S i) ex_S)) with (s_mass ex_S).
    change (s_rho (on_wavenumbers 2 (fun i => S i) ex_S)) with (s_rho ex_S).
    change (s_dndlnm (on_wavenumbers 2 (fun i => S i) ex_S)) with (s_dndlnm ex_S).
    replace (u_dm ex_S 1 1 m / u_dm ex_S 1 1 m) with (2 * u_dm ex_S 1 1 m).
    + unfold Rdiv. ring.
    + destruct (ex_u 1 m) as [-> _]. simpl. field.
  - simpl. lra.
  - simpl. lra.
Qed.
Lemma ex_one_halo : one_halo ex_S (profile_mm ex_S) (profile_mm ex_S) 0 1 1 = 4095 / 48000000.
Proof.
  unfold one_halo. rewrite (simpson_M_RInt ex_S _ (fun M => 0 + 0 * M + 1 / 16000000 * M ^ 2)).
  - unfold mass_int. rewrite RInt_quad. simpl. lra.
  - exact ex_valid_mass.
  - simpl; lia.
  - intros m _. change (profile_mm ex_S) with (matter_profile ex_S). unfold matter_profile. destruct (ex_u 1 m) as [-> _].
    simpl. assert (0 < 2 ^ m) by (apply pow_lt; lra). field. lra.
  - exists 0, 0, (1 / 16000000). intros; ring.
Qed.
Lemma ex_drop_differs : exists r r', power_spectrum_mm ex_S = Ok r /\ power_spectrum_mm ex_drop = Ok r' /\
  s_kvec ex_drop 0 = s_kvec ex_S 1 /\ pk_1h r' 0%nat 1%nat 0%nat = 4 * pk_1h r 0%nat 1%nat 1%nat /\ 0 < pk_1h r 0%nat 1%nat 1%nat.
Proof.
  eexists. eexists. split; [reflexivity|]. split; [reflexivity|]. split; [reflexivity|]. cbn [pk_1h].
  rewrite ex_drop_halo, ex_one_halo. change (t1 ex_drop 0) with (t1 ex_S 1).
  split; [ring|]. apply Rmult_lt_0_compat; [lra|]. unfold t1. simpl. lra.
Qed.
(** The example request on redshifts 0, 1/4, 1 with a mass function that evolves. *)
Definition ex_R : spectra :=
  {| s_mode := s_mode ex_S; s_ingr := s_ingr ex_S; s_dewiggle := s_dewiggle ex_S; s_response := s_response ex_S;
     s_pointmass := s_pointmass ex_S; s_nz := s_nz ex_S; s_nk := s_nk ex_S; s_nm := s_nm ex_S;
     s_zvec := fun z => match z with O => 0 | S O => 1 / 4 | _ => 1 end; s_kvec := s_kvec ex_S;
     s_mass := s_mass ex_S; s_dndlnm := fun z m => (match z with O => 1 | S O => 1 | _ => 4 end) * 2 ^ m;
     s_bias := s_bias ex_S; s_rho := s_rho ex_S; s_growth := s_growth ex_S; s_sigma8z := s_sigma8z ex_S;
     s_neff := s_neff ex_S; s_nfw_cen := s_nfw_cen ex_S; s_nfw_sat := s_nfw_sat ex_S; s_nkh := s_nkh ex_S;
     s_kh := s_kh ex_S; s_power := s_power ex_S; s_nlpower := s_nlpower ex_S; s_plin := s_plin ex_S; s_pnl := s_pnl ex_S;
     s_beta_nl := s_beta_nl ex_S; s_emulator := s_emulator ex_S; s_k1 := s_k1 ex_S; s_k2 := s_k2 ex_S;
     s_k1_ia := s_k1_ia ex_S; s_k2_ia := s_k2_ia ex_S; s_poisson := s_poisson ex_S; s_hod := s_hod ex_S;
     s_hod_set := s_hod_set ex_S; s_hod_set_mm := s_hod_set_mm ex_S; s_h := s_h ex_S; s_t_eff := s_t_eff ex_S;
     s_mb := s_mb ex_S; s_logT := s_logT ex_S; s_ob := s_ob ex_S; s_oc := s_oc ex_S; s_om := s_om ex_S; s_ns := s_ns ex_S;
     s_lnt := s_lnt ex_S; s_gi := s_gi ex_S; s_beta_cen := s_beta_cen ex_S; s_mpivot_cen := s_mpivot_cen ex_S;
     s_beta_sat := s_beta_sat ex_S; s_mpivot_sat := s_mpivot_sat ex_S; s_wkm := s_wkm ex_S |}.

Lemma ex_R_int j m : (j < 3)%nat -> dndlnm_int (hctx ex_R) 0 j m = (match j with O => 1 | S O => 2 | _ => 4 end) * 2 ^ m.
Proof.
  intros Hj. unfold dndlnm_int, interp1d. change (c_set (hctx ex_R)) with ex_set. rewrite ex_z0 by exact Hj.
  change (c_nzv (hctx ex_R)) with 3%nat. set (x := c_zvec (hctx ex_R)). set (y := fun i => c_dndlnm (hctx ex_R) i m).
  assert (Hi : incr 3 x).
  { intros i Hi. assert (E : (i = 0 \/ i = 1)%nat) by lia. destruct E as [-> | ->]; unfold x; simpl; lra. }
  assert (E : (j = 0 \/ j = 1 \/ j = 2)%nat) by lia. destruct E as [->|[->| ->]].
  - replace (INR 0 / 2) with (x 0%nat) by (unfold x; simpl; lra). rewrite interp_node by (assumption || lia). reflexivity.
  - rewrite (interp_in 3 x y (INR 1 / 2) 1); try assumption; try lia.
    + unfold x, y; simpl. field.
    + unfold x; simpl; lra.
    + unfold x; simpl; lra.
  - replace (INR 2 / 2) with (x 2%nat) by (unfold x; simpl; lra). rewrite interp_node by (assumption || lia). reflexivity.
Qed.
Definition ex_R2 : spectra := on_redshifts 2 (fun i => i) ex_R.
Lemma ex_R2_int j m : (j < 3)%nat -> dndlnm_int (hctx ex_R2) 0 j m = 2 ^ m.
Proof.
  intros Hj. unfold dndlnm_int, interp1d, interp_lin. change (c_nzv (hctx ex_R2)) with 2%nat.
  assert (E : forall i, clip_idx 2 i = 1%nat) by (intros i; unfold clip_idx; lia). rewrite E. simpl. field.
Qed.
Lemma ex_cen_any c j m : (m < 5)%nat -> c_mass c m = 2 ^ m -> compute_hod_cen c ex_simple 0 j m = 1.
Proof. intros Hm E. rewrite <- (ex_simple_cen m Hm). simpl. rewrite E. reflexivity. Qed.
Lemma ex_ncen S g j : s_nm S = 5%nat -> s_mass S = (fun m => 2 ^ m) -> (j < 3)%nat ->
  (forall m, dndlnm_int (hctx S) 0 j m = g * 2 ^ m) -> ncen (hctx S) ex_simple 0 j = 15 * g.
Proof.
  intros Hn Hm Hj H. unfold ncen, mass_integral. change (c_nm (hctx S)) with (s_nm S). change (c_mass (hctx S)) with (s_mass S).
  rewrite Hn, Hm.
  rewrite (simpson_ext 5 _ (fun m => g * (0 * 2 ^ m + 1)) _ (fun m => 2 ^ m)); [|lia| |reflexivity].
  - rewrite simpson_scal. unfold simpson. simpl. unfold basic_simpson. simpl. unfold simpson_triple. field.
  - intros m Hlt. rewrite H, ex_cen_any; [|exact Hlt|change (s_mass S m = 2 ^ m); rewrite Hm; reflexivity].
    assert (0 < 2 ^ m) by (apply pow_lt; lra). field. lra.
Qed.
Lemma ex_density_at S d i : s_hod_set S = ex_set -> s_zvec S i = 1 / 4 ->
  ncen (hctx S) ex_simple 0 0 = 15 -> ncen (hctx S) ex_simple 0 1 = 15 * d ->
  number_density_cen (hctx S) ex_simple 0 i = 15 * (1 + d) / 2.
Proof.
  intros Hs Hz H0 H1. unfold number_density_cen, z_interpolate, interp1d.
  change (c_zvec (hctx S)) with (s_zvec S). rewrite Hz. change (c_set (hctx S)) with (s_hod_set S). rewrite Hs. change (nz ex_set) with 3%nat.
  rewrite (interp_in 3 _ _ (1 / 4) 0); try lia.
  - rewrite H0, H1, !ex_z0 by lia. simpl. field.
  - intros i0 Hi0. rewrite !ex_z0 by lia. rewrite S_INR. lra.
  - rewrite ex_z0 by lia. simpl. lra.
  - rewrite ex_z0 by lia. simpl. lra.
Qed.
Lemma ex_R_differs : number_density_cen (hctx ex_R) (s_hod ex_R) 0 1 = 45 / 2 /\
  number_density_cen (hctx ex_R2) (s_hod ex_R2) 0 1 = 15.
Proof.
  split.
  - change (s_hod ex_R) with ex_simple. rewrite (ex_density_at ex_R 2 1); [lra|reflexivity|reflexivity|..].
    + rewrite (ex_ncen ex_R 1); [lra|reflexivity|reflexivity|lia|]. intros m. apply (ex_R_int 0). lia.
    + rewrite (ex_ncen ex_R 2); [lra|reflexivity|reflexivity|lia|]. intros m. apply (ex_R_int 1). lia.
  - change (s_hod ex_R2) with ex_simple. rewrite (ex_density_at ex_R2 1 1); [lra|reflexivity|reflexivity|..].
    + rewrite (ex_ncen ex_R2 1); [lra|reflexivity|reflexivity|lia|]. intros m. rewrite ex_R2_int by lia. ring.
    + rewrite (ex_ncen ex_R2 1); [lra|reflexivity|reflexivity|lia|]. intros m. rewrite ex_R2_int by lia. ring.
Qed.

(** ** Stars make the matter spectrum depend on the galaxies *)
Lemma finite_min n (f : nat -> R) : (forall i, (i < n)%nat -> 0 < f i) -> exists e, 0 < e /\ forall i, (i < n)%nat -> e <= f i.
Proof.
  induction n as [|n IH]; intros H.
  - exists 1. split; [lra|lia].
  - destruct IH as (e & He & Hl); [intros; apply H; lia|].
    exists (Rmin e (f n)). split; [apply Rmin_glb_lt; [exact He|apply H; lia]|].
    intros i Hi. destruct (Nat.eq_dec i n) as [-> |Hne]; [apply Rmin_r|].
    apply Rle_trans with e; [apply Rmin_l|]. apply Hl. lia.
Qed.
Lemma simpson_pos n r x f : (3 <= n)%nat -> 1 < r -> r <= 2 -> geometric n r x ->
  (forall i, (i < n)%nat -> 0 < f i) -> 0 < simpson n f x.
Proof.
  intros Hn Hr Hr2 G H. destruct (finite_min n f H) as (e & He & Hl).
  apply Rlt_le_trans with (simpson n (fun i => e + 0 * x i + 0 * x i ^ 2) x).
  - rewrite simpson_exact by (try assumption; apply (geometric_incr n r); assumption). unfold prim2.
    assert (L : x 0%nat < x (n - 1)%nat).
    { assert (I : increasing n x) by (apply (geometric_incr n r); assumption).
      assert (Q : forall k, (1 <= k)%nat -> (k < n)%nat -> x 0%nat < x k).
      { induction k as [|k IH]; [lia|]. intros _ Hk. destruct k as [|k]; [apply I; lia|].
        apply Rlt_trans with (x (S k)); [apply IH; lia|apply I; lia]. }
      apply Q; lia. }
    nra.
  - apply (simpson_le n r); try assumption; [lia|]. intros i Hi. rewrite Rmult_0_l, Rmult_0_l. specialize (Hl i Hi). lra.
Qed.

Definition ex_gal (md : hod_model) : galaxy_part :=
  {| g_poisson := PConstant 1; g_hod := md; g_set := ex_set; g_set_mm := ex_set;
     g_nfw_sat := s_nfw_sat ex_S; g_k1_ia := None; g_k2_ia := None; g_t_eff := 0; g_pointmass := false;
     g_gi := fun _ => 1; g_beta_cen := None; g_mpivot_cen := None; g_beta_sat := None; g_mpivot_sat := None;
     g_wkm := fun _ _ _ => 1 |}.
Definition ex_F (md : hod_model) : spectra := with_galaxies (ex_gal md) (with_ingr Fit ex_S).
Lemma ex_star_pos m : (m < 5)%nat -> 0 < fstar_mm (ex_F (Cacciato ex_cac)) 0 1 m.
Proof.
  intros Hm. destruct ex_valid_hod as (_ & _ & H1 & H2 & _).
  change (fstar_mm (ex_F (Cacciato ex_cac)) 0 1 m) with (stellar_fraction ex_ctx (Cacciato ex_cac) 0 1 m).
  unfold stellar_fraction, stellar_fraction_of, unit_scale. change (String.eqb (hs_unit (c_set ex_ctx)) unit_h2) with false. cbv iota.
  rewrite (z_interp_node ex_ctx _ _ 0 1 1);
    [|exact ex_valid_z|change (0 < 2)%nat; lia|change (1 < 3)%nat; lia|change (INR 1 / 2 = hod_z ex_set 0 1); rewrite ex_z0 by lia; reflexivity].
  unfold star_frac. apply Rdiv_lt_0_compat; [|simpl; apply pow_lt; lra].
  destruct (obs_geometric ex_ctx 0 1 H2) as (r & [Hr Hr2] & G); [change (1 < 3)%nat; lia|].
  apply (simpson_pos _ r); try assumption; [change (3 <= 3)%nat; lia|].
  intros o _. apply Rmult_lt_0_compat; [|apply hod_obs_pos]. unfold COF, cof.
  apply Rplus_lt_le_0_compat; [apply cof_cen_pos; [apply H1|apply hod_obs_pos]|].
  apply cof_sat_nonneg; [apply H1|]. simpl. apply pow_lt; lra.
Qed.
Lemma ex_F_profile m : (m < 5)%nat ->
  0 < profile_mm (ex_F ex_simple) 0 1 1 m < profile_mm (ex_F (Cacciato ex_cac)) 0 1 1 m.
Proof.
  intros Hm. pose proof (ex_star_pos m Hm) as Hf.
  change (profile_mm (ex_F (Cacciato ex_cac))) with (matter_profile_obs (ex_F (Cacciato ex_cac)) (fstar_mm (ex_F (Cacciato ex_cac)))).
  change (profile_mm (ex_F ex_simple)) with (matter_profile_obs (ex_F ex_simple) (fun _ _ _ => 0)).
  unfold matter_profile_obs, fg_fit. set (f := fstar_mm (ex_F (Cacciato ex_cac)) 0 1 m) in *.
  change (u_dm (ex_F (Cacciato ex_cac)) 1 1 m) with (u_dm ex_S 1 1 m). change (u_dm (ex_F ex_simple) 1 1 m) with (u_dm ex_S 1 1 m).
  destruct (ex_u 1 m) as [-> _]. cbv zeta. cbn [ex_F with_galaxies with_ingr s_mass s_rho s_oc s_om s_ob s_mb ex_S].
  assert (HM : 0 < 2 ^ m) by (apply pow_lt; lra). set (M := 2 ^ m) in *.
  assert (Hq : 0 <= (M / 4) ^ 2) by apply pow2_ge_0. set (q := (M / 4) ^ 2) in *.
  replace (INR 1) with 1 by reflexivity.
  assert (Hs : 0 <= q / (1 + q) < 1).
  { split; [apply Rmult_le_pos; [exact Hq|left; apply Rinv_0_lt_compat; lra]|].
    apply (Rmult_lt_reg_r (1 + q)); [lra|]. unfold Rdiv. rewrite Rmult_assoc, Rinv_l by lra. lra. }
  replace ((1 / 20 / (3 / 10) - 0) * q / (1 + q)) with (1 / 6 * (q / (1 + q))) by (field; lra).
  replace ((1 / 20 / (3 / 10) - f) * q / (1 + q)) with ((1 / 6 - f) * (q / (1 + q))) by (field; lra).
  set (t := q / (1 + q)) in *.
  split.
  - assert (0 < M / 2000) by lra. nra.
  - assert (HW : 0 < M / 2000) by lra. set (W := M / 2000) in *.
    apply Rminus_gt_0_lt.
    match goal with |- 0 < ?a - ?b => replace (a - b) with (f * W * (1 - t * (1 / 2))) by field end.
    apply Rmult_lt_0_compat; [apply Rmult_lt_0_compat; assumption|lra].
Qed.
Lemma ex_F_differs : exists r r', power_spectrum_mm (ex_F ex_simple) = Ok r /\ power_spectrum_mm (ex_F (Cacciato ex_cac)) = Ok r' /\
  pk_1h r 0%nat 1%nat 1%nat < pk_1h r' 0%nat 1%nat 1%nat.
Proof.
  eexists. eexists. split; [reflexivity|]. split; [reflexivity|]. cbn [pk_1h].
  change (t1 (ex_F (Cacciato ex_cac))) with (t1 ex_S). change (t1 (ex_F ex_simple)) with (t1 ex_S).
  apply Rmult_lt_compat_r; [unfold t1; simpl; lra|].
  apply Rminus_gt_0_lt. unfold one_halo.
  change (s_nm (ex_F ex_simple)) with 5%nat. change (s_nm (ex_F (Cacciato ex_cac))) with 5%nat.
  change (s_mass (ex_F (Cacciato ex_cac))) with (s_mass ex_S). change (s_mass (ex_F ex_simple)) with (s_mass ex_S).
  rewrite <- simpson_minus. destruct ex_valid_mass as (_ & r & [Hr Hr2] & G).
  apply (simpson_pos _ r); try assumption; [lia|].
  intros m Hm. destruct (ex_F_profile m Hm) as [H0 H1].
  change (s_dndlnm (ex_F (Cacciato ex_cac)) 1 m) with (2 ^ m). change (s_dndlnm (ex_F ex_simple) 1 m) with (2 ^ m).
  change (s_mass ex_S m) with (2 ^ m). assert (HM : 0 < 2 ^ m) by (apply pow_lt; lra).
  set (a := profile_mm (ex_F (Cacciato ex_cac)) 0 1 1 m) in *. set (b := profile_mm (ex_F ex_simple) 0 1 1 m) in *.
  replace (a * a * 2 ^ m / 2 ^ m - b * b * 2 ^ m / 2 ^ m) with ((a - b) * (a + b)) by (field; lra).
  apply Rmult_lt_0_compat; lra.
Qed.

(** ** Cases and refutations *)
Lemma mm_galaxies_refuted : exists g g' S r r', s_ingr S = Fit /\
  power_spectrum_mm (with_galaxies g S) = Ok r /\ power_spectrum_mm (with_galaxies g' S) = Ok r' /\
  pk_1h r 0%nat 1%nat 1%nat < pk_1h r' 0%nat 1%nat 1%nat.
Proof.
  destruct ex_F_differs as (r & r' & H). exists (ex_gal ex_simple), (ex_gal (Cacciato ex_cac)), (with_ingr Fit ex_S), r, r'.
  split; [reflexivity|exact H].
Qed.
Lemma ex_C85 : exists r, power_spectrum_mm (with_galaxies (ex_gal (Cacciato ex_cac)) ex_S) = Ok r /\ power_spectrum_mm ex_S = Ok r.
Proof.
  destruct (proj1 ex_ok) as [r H]. exists r. split; [|exact H]. rewrite mm_galaxies by reflexivity. exact H.
Qed.
Lemma ab_stats a S b z : a <> 0 ->
  n_gal (with_abundance a S) b z = a * n_gal S b z /\
  f_c (hctx (with_abundance a S)) (s_hod S) b z = f_c (hctx S) (s_hod S) b z /\
  f_s (hctx (with_abundance a S)) (s_hod S) b z = f_s (hctx S) (s_hod S) b z /\
  galaxy_linear_bias (hctx (with_abundance a S)) (s_hod S) b z = galaxy_linear_bias (hctx S) (s_hod S) b z /\
  mass_avg (with_abundance a S) b z = mass_avg S b z.
Proof.
  intros Ha. split; [apply ab_ngal|]. destruct (ab_fc a S Ha b z) as [H1 H2]. split; [exact H1|]. split; [exact H2|].
  split; [exact (ab_bias a S Ha b z)|apply ab_mavg, Ha].
Qed.
Lemma wn_refuted : exists n s S r r', s_mode S <> Hmcode /\ s_dewiggle S = false /\
  power_spectrum_mm S = Ok r /\ power_spectrum_mm (on_wavenumbers n s S) = Ok r' /\
  s_kvec (on_wavenumbers n s S) 0%nat = s_kvec S 1%nat /\ pk_1h r' 0%nat 1%nat 0%nat <> pk_1h r 0%nat 1%nat 1%nat.
Proof.
  destruct ex_drop_differs as (r & r' & H1 & H2 & H3 & H4 & H5). eexists. eexists. exists ex_S, r, r'.
  split; [discriminate|]. split; [reflexivity|]. split; [exact H1|]. split; [exact H2|]. split; [exact H3|]. lra.
Qed.
Lemma ex_C88 : (s_mode ex_S <> Hmcode /\ s_dewiggle ex_S = false) /\
  exists r r', power_spectrum_mm ex_S = Ok r /\ power_spectrum_mm (on_wavenumbers 2 (fun i => (2 * i)%nat) ex_S) = Ok r' /\
  pk_1h r' 0%nat 1%nat 1%nat = pk_1h r 0%nat 1%nat 2%nat.
Proof.
  assert (Hd : s_mode ex_S <> Hmcode /\ s_dewiggle ex_S = false) by (split; [discriminate|reflexivity]).
  split; [exact Hd|]. destruct (proj1 ex_ok) as [r H]. destruct (wn_mm 2 (fun i => (2 * i)%nat) ex_S Hd eq_refl r H) as (r' & H' & E).
  exists r, r'. split; [exact H|]. split; [exact H'|]. apply (E 0%nat 1%nat 1%nat).
Qed.
Lemma rs_refuted : exists n s S, increasing (s_nz S) (s_zvec S) /\ (s 1%nat < s_nz S)%nat /\ (1 < n)%nat /\
  number_density_cen (hctx (on_redshifts n s S)) (s_hod S) 0 1 <> number_density_cen (hctx S) (s_hod S) 0 (s 1%nat).
Proof.
  exists 2%nat, (fun i => i), ex_R. split.
  { intros i Hi. change (S i < 3)%nat in Hi. assert (E : (i = 0 \/ i = 1)%nat) by lia. destruct E as [-> | ->]; simpl; lra. }
  split; [change (1 < 3)%nat; lia|]. split; [lia|]. destruct ex_R_differs as [H1 H2].
  change (s_hod ex_R2) with (s_hod ex_R) in H2. cbv beta. change (on_redshifts 2 (fun i => i) ex_R) with ex_R2. rewrite H1, H2. lra.
Qed.
Lemma ex_C89 : exists r r', power_spectrum_mm ex_S = Ok r /\
  power_spectrum_mm (on_redshifts 1 (fun _ => 1%nat) ex_S) = Ok r' /\ pk_1h r' 0%nat 0%nat 1%nat = pk_1h r 0%nat 1%nat 1%nat.
Proof.
  destruct (proj1 ex_ok) as [r H]. destruct (rs_mm 1 (fun _ => 1%nat) ex_S r H) as (r' & H' & E).
  exists r, r'. split; [exact H|]. split; [exact H'|]. apply (E 0%nat 0%nat 1%nat).
Qed.
Lemma ex_C90 : (1 < zbins (s_hod_set ex_S))%nat /\ hs_zmax (s_hod_set (only_bin 1 ex_S)) <> hs_zmax (s_hod_set ex_S) /\
  exists r r', power_spectrum_gg ex_S = Ok r /\ power_spectrum_gg (only_bin 1 ex_S) = Ok r' /\
  pk_1h r' 0%nat 1%nat 1%nat = pk_1h r 1%nat 1%nat 1%nat.
Proof.
  split; [change (1 < 2)%nat; lia|]. split; [intros E; discriminate E|].
  destruct (proj2 ex_ok GG) as [r H]. destruct (bi_five 1 ex_S) with (x := GG) (r := r) as (r' & H' & E); try exact H.
  - intros _. change (1 < 2)%nat. lia.
  - intros F. discriminate F.
  - exists r, r'. split; [exact H|]. split; [exact H'|]. apply (E 1%nat 1%nat).
Qed.
Lemma ex_C86 : scale_free (with_k2 None ex_S) /\
  exists r r', power_spectrum_mm (with_k2 None ex_S) = Ok r /\ power_spectrum_mm (in_units 2 (with_k2 None ex_S)) = Ok r' /\
  pk_1h r' 0%nat 1%nat 1%nat = 8 * pk_1h r 0%nat 1%nat 1%nat /\ 0 < pk_1h r 0%nat 1%nat 1%nat.
Proof.
  assert (F : scale_free (with_k2 None ex_S)) by (split; [discriminate|split; [reflexivity|right; reflexivity]]).
  split; [exact F|]. destruct ex_drop_differs as (r0 & _ & H1 & _ & _ & _ & H5).
  assert (exists r, power_spectrum_mm (with_k2 None ex_S) = Ok r /\ pk_1h r = pk_1h r0) as (r & Hr & E).
  { assert (D : exists r, power_spectrum_mm (with_k2 None ex_S) = Ok r) by (eexists; reflexivity). destruct D as [r Hr].
    exists r. split; [exact Hr|].
    change (Ok (match power_spectrum_mm (with_k2 None ex_S) with Ok q => q | Err _ => r end) = Ok r) in Hr.
    injection Hr as <-. change (Ok (match power_spectrum_mm ex_S with Ok q => q | Err _ => r0 end) = Ok r0) in H1.
    injection H1 as <-. reflexivity. }
  destruct (un_mm_full 2 _ ltac:(lra) F r Hr) as (r' & H' & _ & M). exists r, r'.
  split; [exact Hr|]. split; [exact H'|]. destruct (M 0%nat 1%nat 1%nat) as [E1 _]. rewrite E1, E. split; [lra|exact H5].
Qed.
Lemma ex_C87 : s_mode ex_S <> Bnl /\ s_response ex_S = false /\
  exists r r', power_spectrum_gg ex_S = Ok r /\ power_spectrum_gg (with_abundance 3 ex_S) = Ok r' /\
  (forall b z k, pk_1h r' b z k = pk_1h r b z k / 3) /\ 0 < number_density (hctx ex_S) (s_hod ex_S) 0 1.
Proof.
  split; [discriminate|]. split; [reflexivity|]. destruct (proj2 ex_ok GG) as [r H].
  destruct (ab_gg 3 ex_S) with (r := r) as (r' & H' & _ & M); try exact H; try lra; try discriminate; try reflexivity.
  exists r, r'. split; [exact H|]. split; [exact H'|]. split; [intros b z k; apply M|].
  destruct ex_densities as (_ & _ & E). change (hctx ex_S) with ex_ctx. change (s_hod ex_S) with ex_simple. rewrite E. lra.
Qed.
(** The example request on redshifts 0, 1/4, 1/2, 3/4, 1. *)
Definition ex_Q : spectra :=
  {| s_mode := s_mode ex_S; s_ingr := s_ingr ex_S; s_dewiggle := s_dewiggle ex_S; s_response := s_response ex_S;
     s_pointmass := s_pointmass ex_S; s_nz := 5; s_nk := s_nk ex_S; s_nm := s_nm ex_S; s_zvec := fun z => INR z / 4;
     s_kvec := s_kvec ex_S; s_mass := s_mass ex_S; s_dndlnm := s_dndlnm ex_S; s_bias := s_bias ex_S; s_rho := s_rho ex_S;
     s_growth := s_growth ex_S; s_sigma8z := s_sigma8z ex_S; s_neff := s_neff ex_S; s_nfw_cen := s_nfw_cen ex_S;
     s_nfw_sat := s_nfw_sat ex_S; s_nkh := s_nkh ex_S; s_kh := s_kh ex_S; s_power := s_power ex_S;
     s_nlpower := s_nlpower ex_S;
     s_plin := Some {| a_rows := 5; a_cols := 3; a_val := fun _ k => 1 + INR k |}; s_pnl := s_pnl ex_S;
     s_beta_nl := s_beta_nl ex_S; s_emulator := s_emulator ex_S; s_k1 := s_k1 ex_S; s_k2 := s_k2 ex_S;
     s_k1_ia := s_k1_ia ex_S; s_k2_ia := s_k2_ia ex_S; s_poisson := s_poisson ex_S; s_hod := s_hod ex_S;
     s_hod_set := s_hod_set ex_S; s_hod_set_mm := s_hod_set_mm ex_S; s_h := s_h ex_S; s_t_eff := s_t_eff ex_S;
     s_mb := s_mb ex_S; s_logT := s_logT ex_S; s_ob := s_ob ex_S; s_oc := s_oc ex_S; s_om := s_om ex_S; s_ns := s_ns ex_S;
     s_lnt := s_lnt ex_S; s_gi := s_gi ex_S; s_beta_cen := s_beta_cen ex_S; s_mpivot_cen := s_mpivot_cen ex_S;
     s_beta_sat := s_beta_sat ex_S; s_mpivot_sat := s_mpivot_sat ex_S; s_wkm := s_wkm ex_S |}.

Lemma ex_C89_kept : increasing (s_nz ex_Q) (s_zvec ex_Q) /\ exists r r', power_spectrum_gg ex_Q = Ok r /\
  power_spectrum_gg (on_redshifts 3 (fun i => (2 * i)%nat) ex_Q) = Ok r' /\
  pk_1h r' 0%nat 1%nat 1%nat = pk_1h r 0%nat 2%nat 1%nat.
Proof.
  assert (I : increasing (s_nz ex_Q) (s_zvec ex_Q)).
  { intros i Hi. change (s_zvec ex_Q) with (fun z => INR z / 4). cbv beta. rewrite S_INR. lra. }
  split; [exact I|].
  assert (D : exists r, power_spectrum GG ex_Q = Ok r) by (eexists; reflexivity). destruct D as [r H].
  destruct (rs_common 3 (fun i => (2 * i)%nat) ex_Q 0) with (x := GG) (r := r) as (r' & H' & E); try exact H; try exact I.
  - change (2 <= 3)%nat. lia.
  - lia.
  - change (2 <= 5)%nat. lia.
  - intros i Hi. change (s_zvec ex_Q) with (fun z => INR z / 4). cbv beta.
    assert (INR (2 * i) < INR (2 * S i)) by (apply lt_INR; lia). lra.
  - intros i Hi. change (2 * i < 5)%nat. lia.
  - intros j Hj. change (j < 3)%nat in Hj. exists j. split; [exact Hj|]. change (s_hod_set ex_Q) with ex_set. rewrite ex_z0 by exact Hj.
    change (INR (2 * j) / 4 = INR j / 2). rewrite mult_INR. simpl. field.
  - exists r, r'. split; [exact H|]. split; [exact H'|]. apply (E 1%nat 1%nat).
Qed.
