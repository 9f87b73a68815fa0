(** Concrete requests used to show that the hypotheses of the HOD theorems are met. *)
From Coquelicot Require Import Coquelicot.
From Verif Require Import Base Spec Quad Interp Erf HodModel HodSpec BaseFacts QuadFacts InterpFacts
  NumFacts HodFacts HodFacts2.
Open Scope R_scope.

Definition ex_set : hod_settings :=
  {| hs_file := None; hs_obs_min := [8; 9]; hs_obs_max := [8 + 1/8; 9 + 1/8];
     hs_zmin := [0; 1/2]; hs_zmax := [1; 1]; hs_nz := 3; hs_nobs := 3; hs_unit := "1/h" |}.

(** Five masses 1, 2, 4, 8, 16; three redshifts 0, 1/2, 1; n(M) = 1; bias 1 + M. *)
Definition ex_ctx : hod_ctx :=
  {| c_set := ex_set; c_nm := 5; c_mass := fun m => 2 ^ m; c_nzv := 3;
     c_zvec := fun i => INR i / 2; c_dndlnm := fun _ m => 2 ^ m; c_bias := fun _ m => 1 + 2 ^ m; c_h := 7/10 |}.

Definition ex_simple : hod_model := Simple {|
  si_log10_Mmin := [0; 0]; si_log10_Msat := [0; 0]; si_alpha := [1; 1]; si_A_cen := None; si_A_sat := None |}.

Definition ex_zheng : hod_model := Zheng {|
  zh_log10_Mmin := [0; 0]; zh_log10_M0 := [0; 0]; zh_log10_M1 := [1; 1]; zh_sigma := [1/5; 1/5]; zh_alpha := [1; 1];
  zh_A_cen := Some (1/2); zh_A_sat := Some (-1/2) |}.

Definition ex_cac : cacciato_par := {|
  ca_log10_obs_norm_c := 9; ca_log10_m_ch := 1; ca_g1 := 3; ca_g2 := 1/4; ca_sigma := 1/5; ca_norm_s := 1/2;
  ca_pivot := 1; ca_alpha_s := -1; ca_beta_s := 2; ca_b0 := -1; ca_b1 := 1; ca_b2 := 0;
  ca_A_cen := None; ca_A_sat := None |}.

Lemma ex_nz : nz ex_set = 3%nat. Proof. reflexivity. Qed.
Lemma ex_zbins : zbins ex_set = 2%nat. Proof. reflexivity. Qed.

Lemma ex_z0 j : (j < 3)%nat -> hod_z ex_set 0 j = INR j / 2.
Proof.
  intros Hj. unfold hod_z. simpl. assert (H : (j = 0 \/ j = 1 \/ j = 2)%nat) by lia.
  destruct H as [->|[->| ->]]; unfold linspace; simpl; lra.
Qed.

Lemma ex_valid_z : valid_z ex_ctx.
Proof.
  split; [change (2 <= 3)%nat; lia|]. split; [|split; [simpl; lia|]].
  - intros b Hb. apply z_ends; [reflexivity|simpl; lia|exact Hb|].
    assert (H : (b = 0 \/ b = 1)%nat) by (change (zbins (c_set ex_ctx)) with 2%nat in Hb; lia).
    destruct H as [-> | ->]; simpl; lra.
  - intros i Hi. change (INR i / 2 < INR (S i) / 2). rewrite S_INR. lra.
Qed.

Lemma ex_valid_mass : valid_mass ex_ctx.
Proof.
  split; [simpl; lia|]. exists 2. split; [lra|]. split; [simpl; lra|].
  intros i Hi. simpl. ring.
Qed.

Lemma ex_valid_hmf : valid_hmf ex_ctx.
Proof.
  split.
  - intros i m Hi Hm. simpl. apply pow_le. lra.
  - intros b j Hb Hj. change (zbins (c_set ex_ctx)) with 2%nat in Hb. change (nz (c_set ex_ctx)) with 3%nat in Hj.
    assert (H : (b = 0 \/ b = 1)%nat) by lia. assert (H' : (j = 0 \/ j = 1 \/ j = 2)%nat) by lia.
    destruct H as [-> | ->], H' as [->|[->| ->]]; unfold hod_z; simpl; unfold linspace; simpl; lra.
Qed.

Lemma ex_in_range : in_range ex_ctx 0 1 /\ out_of_range ex_ctx 1 0.
Proof. unfold in_range, out_of_range, hod_z. simpl. unfold linspace; simpl. split; lra. Qed.

Lemma ex_simple_cen m : (m < 5)%nat -> compute_hod_cen ex_ctx ex_simple 0 0 m = 1.
Proof.
  intros Hm. simpl. unfold step_cen, bin_par; simpl. rewrite pow10_0. apply heaviside_nonneg1.
  assert (1 <= 2 ^ m) by (apply pow_R1_Rle; lra). lra.
Qed.

Lemma ex_simple_sat m : (m < 5)%nat -> compute_hod_sat ex_ctx ex_simple 0 0 m = 2 ^ m.
Proof.
  intros Hm. unfold compute_hod_sat, ex_simple. fold ex_simple.
  rewrite ex_simple_cen by exact Hm. unfold simple_sat, bin_par; simpl. rewrite pow10_0.
  unfold Rdiv. rewrite Rinv_1, Rmult_1_r, fpow_1, Rmult_1_l by (apply pow_le; lra). reflexivity.
Qed.

Lemma ex_sampled : sampled ex_ctx ex_simple 0 1 1 (fun _ => 1) (fun M => M) (fun _ => 1).
Proof.
  split; [change (0 < 2)%nat; lia|]. split; [change (1 < 3)%nat; lia|]. split; [change (1 < 3)%nat; lia|]. split.
  - change (INR 1 / 2 = hod_z ex_set 0 1). rewrite (ex_z0 1) by lia. reflexivity.
  - intros m Hm. change (c_nm ex_ctx) with 5%nat in Hm.
    rewrite hod_cen_const, hod_sat_const by (try reflexivity; try apply ex_valid_z; change (0 < 2)%nat; lia).
    rewrite ex_simple_cen, ex_simple_sat by exact Hm. simpl. repeat split; ring.
Qed.

Lemma ex_valid_hod : valid_hod ex_ctx ex_simple 0 /\ valid_hod ex_ctx ex_zheng 0 /\
  valid_hod ex_ctx (Cacciato ex_cac) 0.
Proof.
  split; [|split].
  - split; intros a Ha; discriminate.
  - split; intros a Ha; injection Ha as <-; lra.
  - split; [split; simpl; lra|]. split; [|split; [reflexivity|intros a Ha; discriminate]].
    split; [simpl; lia|]. intros j _. unfold log_obs_max, log_obs_min. simpl.
    assert (H : 1 / 8 < log10 2).
    { rewrite <- (log10_pow10 (1 / 8)). apply log10_lt; [apply pow10_pos|].
      unfold pow10, ten. rewrite <- (Rpower_1 2) by lra. unfold Rpower. apply exp_increasing.
      rewrite Rmult_1_l. apply Rmult_lt_reg_l with 8; [lra|].
      replace (8 * (1 / 8 * ln 10)) with (ln 10) by field.
      replace 8 with (INR 8) at 1 by (simpl; lra). rewrite <- ln_pow by lra.
      apply ln_increasing; simpl; lra. }
    lra.
Qed.

Lemma ex_populated : populated ex_ctx ex_simple 0.
Proof.
  intros j Hj. change (nz (c_set ex_ctx)) with 3%nat in Hj.
  assert (E : ntot ex_ctx ex_simple 0 j = RInt (fun M => (1 + M) * 1) 1 (2 ^ 4)).
  { apply (mass_integral_RInt ex_ctx (compute_hod ex_ctx ex_simple) (fun M => 1 + M) (fun _ => 1) 0 j j).
    - apply ex_valid_z.
    - apply ex_valid_mass.
    - simpl; lia.
    - simpl; lia.
    - change (INR j / 2 = hod_z ex_set 0 j). rewrite ex_z0 by exact Hj. reflexivity.
    - intros m Hm. change (compute_hod ex_ctx ex_simple 0 j m) with
        (compute_hod_cen ex_ctx ex_simple 0 0 m + compute_hod_sat ex_ctx ex_simple 0 0 m).
      rewrite ex_simple_cen, ex_simple_sat by exact Hm. reflexivity.
    - intros m Hm. simpl. ring.
    - exists 1, 1, 0. intros t. ring. }
  rewrite E. apply Rgt_not_eq.
  apply RInt_gt_0; [simpl; lra| |].
  - intros x Hx. lra.
  - intros x Hx. apply (ex_derive_continuous (V := R_NormedModule)). auto_derive. trivial.
Qed.

Lemma ex_scalar_par : List.length (zh_sigma {| zh_log10_Mmin := [12]; zh_log10_M0 := [12]; zh_log10_M1 := [13];
  zh_sigma := [1/5]; zh_alpha := [1]; zh_A_cen := None; zh_A_sat := None |}) = 1%nat /\ (2 <= zbins ex_set)%nat.
Proof. split; [reflexivity|rewrite ex_zbins; lia]. Qed.
