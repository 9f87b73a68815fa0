(** A concrete request used to show that the hypotheses of the spectrum theorems are met. *)
From Coquelicot Require Import Coquelicot.
From Verif Require Import Base Spec Quad Interp HodModel HodSpec Dewiggle PkModel PkSpec BaseFacts QuadFacts
  InterpFacts NumFacts HodFacts HodFacts2 HodExample PkFacts PkFacts2 PkFacts3 PkFacts4 PkFacts5 PkFacts6 PkFacts7.
Open Scope R_scope.

(** Five masses 1..16, three redshifts, wavenumbers 1, 2, 4; profiles 1/(1+k); flat linear
    power growing with k; mean density 2000; unit alignment. *)
Definition ex_S : spectra := {|
  s_mode := NoNl; s_ingr := NoIngr; s_dewiggle := false; s_response := false; s_pointmass := false;
  s_nz := 3; s_nk := 3; s_nm := 5;
  s_zvec := fun i => INR i / 2; s_kvec := fun k => 2 ^ k; s_mass := fun m => 2 ^ m;
  s_dndlnm := fun _ m => 2 ^ m; s_bias := fun _ m => 1 + 2 ^ m; s_rho := fun _ => 2000;
  s_growth := fun _ => 1; s_sigma8z := fun _ => 8 / 10; s_neff := fun _ => 0;
  s_nfw_cen := fun _ k _ => 1 / (1 + INR k); s_nfw_sat := fun _ k _ => 1 / (1 + INR k);
  s_nkh := 2; s_kh := fun i => INR i; s_power := fun _ _ => 1; s_nlpower := fun _ _ => 2;
  s_plin := Some {| a_rows := 3; a_cols := 3; a_val := fun _ k => 1 + INR k |};
  s_pnl := Some {| a_rows := 3; a_cols := 3; a_val := fun _ k => 3 + INR k |};
  s_beta_nl := Some (fun _ _ _ _ => 1 / 10); s_emulator := Err "FileNotFoundError";
  s_k1 := Some (1 / 10); s_k2 := Some 2; s_k1_ia := Some 4; s_k2_ia := Some 6;
  s_poisson := PConstant 1; s_hod := ex_simple; s_hod_set := ex_set; s_hod_set_mm := ex_set; s_h := 7 / 10;
  s_t_eff := 1 / 2; s_mb := 4; s_logT := 78 / 10; s_ob := 1 / 20; s_oc := 1 / 4; s_om := 3 / 10;
  s_ns := 1; s_lnt := fun _ => 0;
  s_gi := fun _ => 1; s_beta_cen := None; s_mpivot_cen := None; s_beta_sat := None; s_mpivot_sat := None;
  s_wkm := fun _ _ _ => 1 |}.

Lemma ex_hctx : hctx ex_S = ex_ctx. Proof. reflexivity. Qed.

Definition ex_fields (k : nat) : halo_fields :=
  {| h_Nc := fun _ => 1; h_Ns := fun M => M; h_n := fun _ => 1; h_b := fun M => 1 + M;
     h_u := fun _ => 1 / (1 + INR k); h_us := fun _ => 1 / (1 + INR k); h_w := fun _ => 1 |}.

Lemma ex_u k m : u_dm ex_S 1 k m = 1 / (1 + INR k) /\ u_sat ex_S 1 k m = 1 / (1 + INR k).
Proof.
  unfold u_dm, u_sat. simpl s_nfw_cen. simpl s_nfw_sat. change (INR 0) with 0. pose proof (pos_INR k).
  split; field; lra.
Qed.

Lemma ex_sampled_at k : sampled_at ex_S 0 1 1 k (ex_fields k).
Proof.
  split; [exact ex_sampled|]. intros m Hm. destruct (ex_u k m). repeat split; assumption.
Qed.

Lemma RInt_quad a b c x y : RInt (fun t => a + b * t + c * t ^ 2) x y
  = a * (y - x) + b * (y ^ 2 - x ^ 2) / 2 + c * (y ^ 3 - x ^ 3) / 3.
Proof.
  apply is_RInt_unique.
  apply (is_RInt_ext (fun t => a + b * t + c * t ^ 2)); [reflexivity|].
  replace (a * (y - x) + b * (y ^ 2 - x ^ 2) / 2 + c * (y ^ 3 - x ^ 3) / 3)
    with (minus (a * y + b * y ^ 2 / 2 + c * y ^ 3 / 3) (a * x + b * x ^ 2 / 2 + c * x ^ 3 / 3))
    by (unfold minus, plus, opp; simpl; field).
  apply (is_RInt_derive (fun t => a * t + b * t ^ 2 / 2 + c * t ^ 3 / 3)).
  - intros t _. auto_derive; [trivial|]. field.
  - intros t _. apply (ex_derive_continuous (V := R_NormedModule)). auto_derive. trivial.
Qed.

Lemma ex_densities : number_density_cen ex_ctx ex_simple 0 1 = 15 /\ number_density_sat ex_ctx ex_simple 0 1 = 255 / 2 /\
  number_density ex_ctx ex_simple 0 1 = 285 / 2.
Proof.
  destruct (sampled_density ex_ctx ex_simple 0 1 1 (fun _ => 1) (fun M => M) (fun _ => 1)) as [H1 H2].
  - exact ex_valid_z. - exact ex_valid_mass. - simpl; lia. - exact ex_sampled.
  - exists 1, 0, 0; intros; ring. - exists 0, 1, 0; intros; ring.
  - rewrite number_density_split, H1, H2.
    replace (RInt (fun _ => 1 * 1) (c_mass ex_ctx 0%nat) (c_mass ex_ctx (c_nm ex_ctx - 1))) with 15.
    replace (RInt (fun M => M * 1) (c_mass ex_ctx 0%nat) (c_mass ex_ctx (c_nm ex_ctx - 1))) with (255 / 2).
    + repeat split; lra.
    + rewrite (RInt_ext _ (fun t => 0 + 1 * t + 0 * t ^ 2)) by (intros; simpl; ring). rewrite RInt_quad.
      simpl. lra.
    + rewrite (RInt_ext _ (fun t => 1 + 0 * t + 0 * t ^ 2)) by (intros; simpl; ring). rewrite RInt_quad.
      simpl. lra.
Qed.

Lemma ex_galaxies : galaxies_exist ex_S 0 1.
Proof. unfold galaxies_exist. rewrite ex_hctx. destruct ex_densities as (H1 & H2 & _). simpl s_hod. rewrite H1, H2. lra. Qed.

Lemma ex_background : positive_background ex_S.
Proof.
  split; [simpl; lia|]. split; [intros m _; apply pow_lt; lra|]. split; intros; simpl; lra.
Qed.

Lemma ex_nonneg : nonneg_ingredients ex_S.
Proof.
  split; [simpl; lia|]. split; [exists 2; split; [lra|]; split; [simpl; lra|intros i Hi; simpl; ring]|].
  split; [intros; simpl; lra|]. split; [intros; simpl; lra|].
  split; [intros z m _; simpl; apply pow_le; lra|].
  split; [intros z m _; simpl; pose proof (pow_le 2 m); lra|].
  split; [|split; [|split; [intros; simpl; lra|intros; simpl; lra]]]; intros z k m _;
    unfold u_dm, u_sat; simpl; pose proof (pos_INR k); apply div_nonneg; try lra;
    apply div_nonneg; lra.
Qed.

Lemma ex_nonneg_galaxies : nonneg_galaxies ex_S 0 1.
Proof.
  apply physical_galaxies; rewrite ?ex_hctx.
  - exact ex_valid_z. - exact ex_valid_mass. - exact ex_valid_hmf. - apply ex_valid_hod. - exact ex_populated.
  - change (0 < 2)%nat; lia. - apply ex_in_range.
Qed.

Lemma ex_A : A_term ex_S 1 = 1 - 14925 / 20000.
Proof.
  unfold A_term.
  rewrite (simpson_M_RInt ex_S _ (fun M => 0 + 1 / 2000 * M + 1 / 2000 * M ^ 2)).
  - unfold mass_int. rewrite RInt_quad. simpl. lra.
  - exact ex_valid_mass.
  - simpl; lia.
  - intros m _. simpl. field.
  - exists 0, (1/2000), (1/2000). intros; ring.
Qed.

Lemma ex_budget : bias_budget ex_S 1.
Proof.
  pose proof ex_A as H. unfold A_term in H. unfold bias_budget.
  rewrite (simpson_pw _ _ (fun m => s_bias ex_S 1 m * s_dndlnm ex_S 1 m * (1 / s_rho ex_S 1)))
    by (intros; unfold Rdiv; ring). lra.
Qed.

Lemma ex_no_feedback : no_feedback ex_S. Proof. right. split; reflexivity. Qed.
Lemma ex_no_scaling : no_mass_scaling ex_S. Proof. split; left; reflexivity. Qed.

Lemma ex_ok : (exists r, power_spectrum_mm ex_S = Ok r) /\
  forall x, exists r, power_spectrum x ex_S = Ok r.
Proof. split; [eexists; reflexivity|]. intros x; destruct x; eexists; reflexivity. Qed.

Lemma ex_ok_fortuna : forall x, exists r, power_spectrum x (with_mode Fortuna ex_S) = Ok r.
Proof. intros x; destruct x; eexists; reflexivity. Qed.

Lemma ex_ok_bnl : (exists r, power_spectrum_mm (with_mode Bnl ex_S) = Ok r) /\
  forall x, exists r, power_spectrum x (with_mode Bnl ex_S) = Ok r.
Proof. split; [eexists; reflexivity|]. intros x; destruct x; eexists; reflexivity. Qed.

Lemma ex_ok_response : (exists r, power_spectrum_mm (with_response true ex_S) = Ok r) /\
  forall x, exists r, power_spectrum x (with_response true ex_S) = Ok r.
Proof. split; [eexists; reflexivity|]. intros x; destruct x; eexists; reflexivity. Qed.

(** hmcode request: flat no-wiggle shape, so dewiggling leaves P proportional to k alone. *)
Definition ex_H : spectra := with_plin (Some {| a_rows := 3; a_cols := 3; a_val := fun _ k => 2 ^ k |})
  (with_dewiggle true (with_ingr Mead2020 (with_mode Hmcode ex_S))).

Lemma ex_H_lin : exists pl, pk_lin ex_H = Ok pl /\ forall z k, (k < 3)%nat -> pl z k = 2 ^ k.
Proof.
  destruct (lin_smooth ex_H {| a_rows := 3; a_cols := 3; a_val := fun _ k => 2 ^ k |} (fun _ => 1)) as (pl & E & F).
  - reflexivity. - reflexivity. - simpl; lia. - split; reflexivity.
  - intros k _. simpl. apply pow_lt; lra.
  - intros z k Hk. simpl s_ns. simpl s_lnt. simpl a_val. simpl s_kvec. rewrite Rpower_1 by (apply pow_lt; lra).
    rewrite exp_0. ring.
  - exists pl. split; [exact E|]. exact F.
Qed.

Lemma ex_H_ok : exists r, power_spectrum_mm ex_H = Ok r.
Proof.
  destruct ex_H_lin as (pl & E & _). unfold power_spectrum_mm. change (s_response ex_H) with false. cbv iota.
  unfold power_spectrum_mm_raw. rewrite E. eexists. reflexivity.
Qed.

Lemma ex_mm_1h k : one_halo ex_S (matter_profile ex_S) (matter_profile ex_S) 0 1 k
  = 4095 / 3 * (1 / 2000 * (1 / (1 + INR k))) ^ 2.
Proof.
  rewrite (one_halo_RInt ex_S _ _ (fun M => M / 2000 * (1 / (1 + INR k))) (fun M => M / 2000 * (1 / (1 + INR k))) (fun _ => 1)).
  - unfold mass_int. rewrite (RInt_ext _ (fun t => 0 + 0 * t + (1 / 2000 * (1 / (1 + INR k))) ^ 2 * t ^ 2)).
    + rewrite RInt_quad. simpl s_mass. field. pose proof (pos_INR k). lra.
    + intros x _. pose proof (pos_INR k). match goal with |- @eq _ ?a ?b => change (@eq R a b) end. field. lra.
  - exact ex_valid_mass.
  - simpl; lia.
  - intros m _. unfold matter_profile. destruct (ex_u k m) as [-> _]. reflexivity.
  - intros m _. unfold matter_profile. destruct (ex_u k m) as [-> _]. reflexivity.
  - intros m _. simpl. ring.
  - exists 0, 0, ((1 / 2000 * (1 / (1 + INR k))) ^ 2). intros t. pose proof (pos_INR k). field. lra.
Qed.

Lemma ex_H_positive r : power_spectrum_mm ex_H = Ok r -> 0 < pk_1h r 0%nat 1%nat 1%nat /\ 0 < pk_2h r 0%nat 1%nat 1%nat.
Proof.
  intros H. destruct (mm_hmcode ex_H r eq_refl eq_refl H) as (_ & pl & E & F).
  destruct (F 0%nat 1%nat 1%nat) as (F2 & F1 & _). destruct ex_H_lin as (pl' & E' & G).
  rewrite E in E'. injection E' as <-. rewrite F1, F2, G by lia. clear F F1 F2.
  assert (H8 : 0 < 8 / 10) by lra. split.
  - apply Rmult_lt_0_compat.
    + change (0 < one_halo ex_S (matter_profile ex_S) (matter_profile ex_S) 0 1 1). rewrite ex_mm_1h. simpl. lra.
    + simpl s_sigma8z. unfold trunc1_mead.
      pose proof (kstar_pos (5618/100000) (8/10) (- (1013 / 1000)) ltac:(lra) H8) as Hk.
      set (a := _ * fpow _ _) in *. change (s_kvec ex_H 1) with (2 ^ 1).
      assert (0 < 2 ^ 1 / a) by (apply Rdiv_lt_0_compat; [simpl; lra|exact Hk]).
      assert (0 < (2 ^ 1 / a) ^ 4) by (apply pow_lt; assumption).
      apply Rdiv_lt_0_compat; lra.
  - apply Rmult_lt_0_compat; [simpl; lra|]. simpl s_sigma8z. unfold trunc2_mead.
    set (x := fpow _ (2853 / 1000)). pose proof (sat_range x (fpow_ge0 _ _)) as Hs.
    pose proof (mead_f_range (8/10) ltac:(lra)) as Hf. set (f := _ * fpow (8/10) (9403/10000)) in *.
    unfold Rdiv in *. rewrite Rmult_assoc. nra.
Qed.

(** ** Values used by the counter-examples *)
Lemma ex_Ic_term k : Ic_term ex_S 0 1 k = 1.
Proof.
  unfold Ic_term. rewrite (Ig_RInt ex_S _ (fun _ => 1 / (285 / 2)) (fun M => 1 + M) (fun _ => 1)).
  - unfold mass_int. rewrite (RInt_ext _ (fun t => 1 / (285 / 2) + 1 / (285 / 2) * t + 0 * t ^ 2)).
    + rewrite RInt_quad. simpl s_mass. simpl. lra.
    + intros x _. match goal with |- @eq _ ?a ?b => change (@eq R a b) end. simpl. ring.
  - exact ex_valid_mass.
  - simpl; lia.
  - intros m Hm. rewrite (sa_cen ex_S 0 1 1 k (ex_fields k)); try exact Hm.
    + unfold n_gal. rewrite ex_hctx. destruct ex_densities as (_ & _ & E). simpl s_hod. rewrite E. reflexivity.
    + exact ex_valid_z.
    + exact ex_galaxies.
    + exact (ex_sampled_at k).
  - reflexivity.
  - intros m _. simpl. ring.
  - exists (1 / (285 / 2)), (1 / (285 / 2)), 0. intros; ring.
Qed.

Lemma ex_Is_align k : Is_align ex_S 0 1 k = 2000 / (285 / 2).
Proof.
  unfold Is_align. rewrite (I_align_linear ex_S _ 0 1 k (1 / (285 / 2)) ex_background).
  - simpl. lra.
  - intros m Hm. rewrite (sa_align ex_S 0 1 1 k (ex_fields k)); try exact Hm.
    + unfold n_gal. rewrite ex_hctx. destruct ex_densities as (_ & _ & E). simpl s_hod. rewrite E.
      simpl h_Ns. simpl h_w. simpl s_mass. lra.
    + exact ex_valid_z.
    + exact ex_galaxies.
    + exact (ex_sampled_at k).
    + exact ex_no_scaling.
Qed.

Lemma ex_f_c : f_c ex_ctx ex_simple 0 1 = 15 / (285 / 2).
Proof.
  destruct (fractions_ratio ex_ctx ex_simple 0 1 1 ex_valid_z) as [-> _].
  - change (0 < 2)%nat; lia.
  - change (1 < 3)%nat; lia.
  - apply ex_sampled.
  - destruct ex_densities as (-> & _ & ->). reflexivity.
Qed.

Lemma ex_Ic_align k : Ic_align ex_S 0 1 k = 15 / (285 / 2) * (5 / 100000000000000) * 2000.
Proof.
  rewrite (Ic_align_value ex_S 0 1 k ex_background). rewrite ex_hctx, scaling_none by (left; reflexivity).
  change (s_hod ex_S) with ex_simple. rewrite ex_f_c. simpl. lra.
Qed.

Lemma ex_large : large_scale ex_S 1 0.
Proof. intros m _. destruct (ex_u 0 m) as [-> _]. simpl. lra. Qed.

Lemma ex_mass_avg : mass_avg ex_S 0 1 = 255 / 285.
Proof.
  rewrite (mass_avg_value ex_S 0 1 1 (fun _ => 1) (fun M => M) (fun _ => 1)).
  - rewrite ex_hctx. change (s_hod ex_S) with ex_simple. rewrite ex_f_c. unfold mass_int.
    rewrite (RInt_ext _ (fun t => 0 + 1 * t + 0 * t ^ 2))
      by (intros; match goal with |- @eq _ ?a ?b => change (@eq R a b) end; ring). rewrite RInt_quad.
    rewrite (RInt_ext _ (fun t => 1 + 0 * t + 0 * t ^ 2))
      by (intros; match goal with |- @eq _ ?a ?b => change (@eq R a b) end; ring). rewrite RInt_quad.
    simpl. lra.
  - exact ex_valid_z.
  - exact ex_valid_mass.
  - simpl; lia.
  - exact ex_sampled.
  - apply ex_galaxies.
  - exists 0, 1, 0; intros; ring.
  - exists 0, 0, 1; intros; ring.
  - exists 1, 0, 0; intros; ring.
  - exists 0, 1, 0; intros; ring.
Qed.
