(** Proofs about pyfftlog: kernel form, exact modes, fftl. *)
From Coq Require Import ZArith Lia.
From Verif Require Import Base QuadFacts FftModel FftSpec FftFacts FftFacts2 FftFacts3 FftFacts4 FftFacts5.
Open Scope R_scope.

Lemma log_grid_pos n c d i : 0 < c -> 0 < log_grid n c d i.
Proof. intros C. apply Rmult_lt_0_compat; [exact C|apply exp_pos]. Qed.
Lemma ln_log_grid n c d i : 0 < c -> ln (log_grid n c d i) = ln c + (INR i - (INR n - 1) / 2) * d.
Proof. intros C. unfold log_grid. rewrite ln_mult by (exact C || apply exp_pos). now rewrite ln_exp. Qed.

Section Gamma.
  Variables lgr lgi : R -> R -> R.
  Notation kern := (kernel_of lgr lgi).
  Notation work := (work lgr lgi).

  Lemma unbiased n mu dlnr kr xs a dir out : (1 <= n)%nat -> work n mu dlnr 0 kr xs -> (dir = 1 \/ dir = -1)%Z -> fht n a xs dir = Ok out ->
    forall j, (j < n)%nat -> out j = sumR n (fun i => a i * kern n mu dlnr 0 kr dir (INR (n - 1 - j) - INR i)).
  Proof.
    intros Hn W Hd E j Hj. rewrite (fht_any lgr lgi _ _ _ _ _ _ _ _ _ Hn W Hd E j Hj). unfold post, pre.
    replace (- IZR dir * 0 * ((INR j + 1 - (INR n + 1) / 2) * dlnr + ln kr)) with 0 by ring. rewrite exp_0, Rmult_1_l. apply sumR_ext. intros i Hi.
    replace (- IZR dir * 0 * (INR i + 1 - (INR n + 1) / 2) * dlnr) with 0 by ring. rewrite exp_0. ring.
  Qed.
  (** The transform samples one function of the product of the two grids. *)
  Theorem kernel_form n mu dlnr kr rc xs a dir out : (1 <= n)%nat -> 0 < kr -> 0 < rc -> dlnr <> 0 -> work n mu dlnr 0 kr xs ->
    (Nat.even n = true -> low_ringing lgi mu 0 dlnr kr) -> (dir = 1 \/ dir = -1)%Z -> fht n a xs dir = Ok out ->
    forall j, (j < n)%nat -> out j = sumR n (fun i => a i * bessel_kernel lgi n mu dlnr (ln (log_grid n rc dlnr i * log_grid n (kr / rc) dlnr j))).
  Proof.
    intros Hn K RC D W LR Hd E j Hj. rewrite (unbiased _ _ _ _ _ _ _ _ Hn W Hd E j Hj). apply sumR_ext. intros i Hi. f_equal.
    assert (N0 : INR n <> 0) by (apply not_0_INR; lia).
    assert (KR : 0 < kr / rc) by (apply Rdiv_lt_0_compat; assumption).
    rewrite ln_mult by (apply log_grid_pos; assumption). rewrite !ln_log_grid by assumption.
    assert (LK : ln (kr / rc) = ln kr - ln rc) by (unfold Rdiv; rewrite ln_mult, ln_Rinv by (try apply Rinv_0_lt_compat; assumption); ring). rewrite LK.
    set (x := ln rc + _ + _). assert (X : x = ln kr - (INR (n - 1 - j) - INR i) * dlnr) by (unfold x; rewrite !minus_INR by lia; change (INR 1) with 1; field).
    unfold kernel_of. rewrite kap_sum by exact Hn. unfold bessel_kernel. f_equal. rewrite sumR_shift. f_equal.
    - unfold hw, hg, ha, real_freq, zero_mode. cbn [Nat.eqb orb]. destruct (Req_EM_T 0 0); [|contradiction]. change (INR 0) with 0.
      replace (2 * PI * 0 * _ / INR n + 0) with 0 by (unfold Rdiv; ring). rewrite cos_0. ring.
    - apply sumR_ext. intros k Hk. unfold hw, hg, ha, real_freq. cbn [Nat.eqb]. cbn [orb].
      assert (F : 2 * mode_freq n dlnr (S k) * dlnr = 2 * PI * INR (S k) / INR n) by (unfold mode_freq; field; split; assumption).
      destruct (Nat.eqb_spec (2 * S k) n) as [M|M].
      + assert (Ev : Nat.even n = true) by (apply Nat.even_spec; exists (S k); lia).
        assert (KH : (n / 2)%nat = S k) by (rewrite <- M, Nat.mul_comm; apply Nat.div_mul; lia).
        rewrite KH, amp_zero. rewrite <- KH. pose proof (freq_half n dlnr Hn Ev D) as FH. rewrite FH, arg_phase by exact K.
        replace (2 * (PI / (2 * dlnr)) * ln kr) with (PI / dlnr * ln kr) by (field; exact D).
        assert (MF : mode_freq n dlnr (n / 2) = PI / (2 * dlnr)) by exact FH. rewrite MF.
        destruct (LR Ev) as [z Z]. rewrite Z.
        replace (bessel_phase lgi mu 0 (PI / (2 * dlnr)) - 2 * (PI / (2 * dlnr)) * x) with (IZR z * PI + PI * (INR (n - 1 - j) - INR i)).
        2:{ rewrite <- Z, X. field. exact D. }
        rewrite (cos_plus (IZR z * PI)), sin_zpi, Rmult_0_l, Rminus_0_r.
        replace (2 * PI * INR (n / 2) * (INR (n - 1 - j) - INR i) / INR n) with (PI * (INR (n - 1 - j) - INR i)).
        2:{ rewrite KH, <- M, mult_INR. change (INR 2) with 2. field. apply not_0_INR. lia. }
        rewrite Rplus_0_r, Rmult_1_r. unfold dirg. destruct Hd as [-> | ->]; cbn [Z.eqb Pos.eqb]; destruct (cos_zpi z) as [-> | ->]; field.
      + rewrite amp_zero, arg_phase by exact K. replace (dirg dir 1) with 1 by (unfold dirg; destruct (Z.eqb dir 1); [reflexivity|now rewrite Rinv_1]).
        rewrite Rmult_1_r. f_equal. f_equal. rewrite X. change (freq n dlnr (S k)) with (mode_freq n dlnr (S k)).
        replace (2 * PI * INR (S k) * (INR (n - 1 - j) - INR i) / INR n) with (2 * mode_freq n dlnr (S k) * dlnr * (INR (n - 1 - j) - INR i)) by (rewrite F; unfold Rdiv; ring).
        ring.
  Qed.

  (** Convolution of the kernel with one harmonic. *)
  Lemma kap_mode n u0 g arg nyq m b L : (1 <= n)%nat -> (1 <= m)%nat -> (2 * m < n)%nat ->
    sumR n (fun i => cos (2 * PI * INR m * INR i / INR n + b) * kap n u0 g arg nyq (INR L - INR i)) = g m * cos (2 * PI * INR m * INR L / INR n + arg m + b).
  Proof.
    intros Hn Hm H2. assert (N0 : INR n <> 0) by (apply not_0_INR; lia).
    rewrite (sumR_ext n _ (fun i => sumR (S (n / 2)) (fun m' => hw n m' * hg n u0 g nyq m' / INR n *
      (cos (- b - 2 * PI * INR m * INR i / INR n) * cos (2 * PI * INR m' * INR L / INR n + ha n arg m' - 2 * PI * INR m' * INR i / INR n))))).
    2:{ intros i _. rewrite kap_sum by exact Hn. unfold Rdiv. rewrite <- Rmult_assoc, (Rmult_comm _ (/ INR n)), <- Rmult_assoc, <- sumR_scal. apply sumR_ext. intros m' _.
        replace (cos (- b - 2 * PI * INR m * INR i * / INR n)) with (cos (2 * PI * INR m * INR i * / INR n + b)) by (rewrite <- cos_neg; f_equal; ring).
        replace (2 * PI * INR m' * INR L * / INR n + ha n arg m' - 2 * PI * INR m' * INR i * / INR n) with (2 * PI * INR m' * (INR L - INR i) * / INR n + ha n arg m') by ring. ring. }
    assert (HM : (m <= n / 2)%nat) by (apply Nat.div_le_lower_bound; lia).
    rewrite sumR_swap, (sumR_one _ _ m) by (try lia; intros m' Hm' N; rewrite sumR_scal, harmonics_differ by lia; ring).
    rewrite sumR_scal, harmonics_same by lia.
    assert (RF : real_freq n m = false) by (unfold real_freq; destruct (Nat.eqb_spec m 0); [lia|]; destruct (Nat.eqb_spec (2 * m) n); [lia|reflexivity]).
    unfold hw, hg, ha. rewrite RF. destruct (Nat.eqb_spec m 0); [lia|]. destruct (Nat.eqb_spec (2 * m) n); [lia|].
    replace (cos (- b - (2 * PI * INR m * INR L / INR n + arg m))) with (cos (2 * PI * INR m * INR L / INR n + arg m + b)) by (rewrite <- cos_neg; f_equal; ring).
    field. exact N0.
  Qed.
  Lemma kap_const n u0 g arg nyq L : (1 <= n)%nat -> sumR n (fun i => kap n u0 g arg nyq (INR L - INR i)) = u0.
  Proof.
    intros Hn. assert (N0 : INR n <> 0) by (apply not_0_INR; lia).
    rewrite (sumR_ext n _ (fun i => sumR (S (n / 2)) (fun m' => hw n m' * hg n u0 g nyq m' / INR n *
      (cos (0 - 2 * PI * INR 0 * INR i / INR n) * cos (2 * PI * INR m' * INR L / INR n + ha n arg m' - 2 * PI * INR m' * INR i / INR n))))).
    2:{ intros i _. rewrite kap_sum by exact Hn. unfold Rdiv. rewrite (Rmult_comm _ (/ INR n)), <- sumR_scal. apply sumR_ext. intros m' _.
        change (INR 0) with 0. replace (0 - 2 * PI * 0 * INR i * / INR n) with 0 by ring. rewrite cos_0.
        replace (2 * PI * INR m' * INR L * / INR n + ha n arg m' - 2 * PI * INR m' * INR i * / INR n) with (2 * PI * INR m' * (INR L - INR i) * / INR n + ha n arg m') by ring. ring. }
    rewrite sumR_swap, (sumR_one _ _ 0%nat) by (try lia; intros m' Hm' N; rewrite sumR_scal, harmonics_differ by lia; ring).
    rewrite sumR_scal, harmonics_real by lia. unfold hw, hg, ha, real_freq. cbn [Nat.eqb orb]. change (INR 0) with 0.
    replace (2 * PI * 0 * INR L / INR n + 0) with 0 by (unfold Rdiv; ring). rewrite cos_0. field. exact N0.
  Qed.
  Lemma pre_power n q dlnr dir rc i : 0 < rc -> Rpower (log_grid n rc dlnr i) (IZR dir * q) * pre n q dlnr dir i = Rpower rc (IZR dir * q).
  Proof.
    intros RC. unfold Rpower. rewrite ln_log_grid by exact RC. unfold pre. rewrite <- exp_plus. f_equal. field.
  Qed.
  Lemma post_power n q dlnr kr dir rc j : 0 < rc -> 0 < kr -> post n q dlnr kr dir j * Rpower rc (IZR dir * q) = Rpower (log_grid n (kr / rc) dlnr j) (- IZR dir * q).
  Proof.
    intros RC K. unfold Rpower. rewrite ln_log_grid by (apply Rdiv_lt_0_compat; assumption).
    assert (LK : ln (kr / rc) = ln kr - ln rc) by (unfold Rdiv; rewrite ln_mult, ln_Rinv by (try apply Rinv_0_lt_compat; assumption); ring).
    rewrite LK. unfold post. rewrite <- exp_plus. f_equal. field.
  Qed.
  (** Exact on log-periodic modes, with the separations of the transform's own grid. *)
  Theorem mode_exact n mu dlnr q kr rc xs dir m psi a out : (1 <= n)%nat -> 0 < kr -> 0 < rc -> dlnr <> 0 -> work n mu dlnr q kr xs ->
    (dir = 1 \/ dir = -1)%Z -> (1 <= m)%nat -> (2 * m < n)%nat ->
    (forall i, (i < n)%nat -> a i = Rpower (log_grid n rc dlnr i) (IZR dir * q) * cos (2 * mode_freq n dlnr m * ln (log_grid n rc dlnr i) + psi)) ->
    fht n a xs dir = Ok out -> forall j, (j < n)%nat ->
    out j = Rpower (log_grid n (kr / rc) dlnr j) (- IZR dir * q) * (if Z.eqb dir 1 then bessel_gain lgr mu q (mode_freq n dlnr m) else / bessel_gain lgr mu q (mode_freq n dlnr m))
      * cos (bessel_phase lgi mu q (mode_freq n dlnr m) + psi - 2 * mode_freq n dlnr m * ln (log_grid n (kr / rc) dlnr j)).
  Proof.
    intros Hn K RC D W Hd Hm H2 HA E j Hj. rewrite (fht_any lgr lgi _ _ _ _ _ _ _ _ _ Hn W Hd E j Hj). assert (N0 : INR n <> 0) by (apply not_0_INR; lia).
    set (y := mode_freq n dlnr m) in *. assert (F : 2 * y * dlnr = 2 * PI * INR m / INR n) by (unfold y, mode_freq; field; split; assumption).
    set (b := 2 * y * ln rc - PI * INR m * (INR n - 1) / INR n + psi).
    rewrite (sumR_ext n _ (fun i => Rpower rc (IZR dir * q) * (cos (2 * PI * INR m * INR i / INR n + b) * kern n mu dlnr q kr dir (INR (n - 1 - j) - INR i)))).
    2:{ intros i Hi. rewrite HA by exact Hi. transitivity (Rpower (log_grid n rc dlnr i) (IZR dir * q) * pre n q dlnr dir i * (cos (2 * y * ln (log_grid n rc dlnr i) + psi) * kern n mu dlnr q kr dir (INR (n - 1 - j) - INR i))); [ring|].
        rewrite pre_power by exact RC. f_equal. f_equal. f_equal. rewrite ln_log_grid by exact RC. unfold b.
        replace (2 * y * (ln rc + (INR i - (INR n - 1) / 2) * dlnr)) with (2 * y * ln rc + 2 * y * dlnr * (INR i - (INR n - 1) / 2)) by ring. rewrite F. field. exact N0. }
    rewrite sumR_scal, <- Rmult_assoc, post_power by assumption. rewrite (Rmult_assoc (Rpower _ _)). f_equal. unfold kernel_of. etransitivity; [apply (kap_mode n); assumption|].
    unfold dirg. change (freq n dlnr m) with y. change (xsave_amp lgr mu q y) with (bessel_gain lgr mu q y). f_equal. f_equal. rewrite arg_phase by exact K.
    rewrite ln_log_grid by (apply Rdiv_lt_0_compat; assumption).
    assert (LK : ln (kr / rc) = ln kr - ln rc) by (unfold Rdiv; rewrite ln_mult, ln_Rinv by (try apply Rinv_0_lt_compat; assumption); ring). rewrite LK.
    replace (2 * y * (ln kr - ln rc + (INR j - (INR n - 1) / 2) * dlnr)) with (2 * y * ln kr - 2 * y * ln rc + 2 * y * dlnr * (INR j - (INR n - 1) / 2)) by ring.
    rewrite F. unfold b. rewrite !minus_INR by lia. change (INR 1) with 1. field. exact N0.
  Qed.
  (** Exact on power laws. *)
  Theorem power_exact n mu dlnr q kr rc xs dir a out : (1 <= n)%nat -> 0 < kr -> 0 < rc -> dlnr <> 0 -> work n mu dlnr q kr xs -> (dir = 1 \/ dir = -1)%Z ->
    (forall i, (i < n)%nat -> a i = Rpower (log_grid n rc dlnr i) (IZR dir * q)) -> fht n a xs dir = Ok out ->
    forall j, (j < n)%nat -> out j = Rpower (log_grid n (kr / rc) dlnr j) (- IZR dir * q) * zero_mode lgr lgi mu q dir.
  Proof.
    intros Hn K RC D W Hd HA E j Hj. rewrite (fht_any lgr lgi _ _ _ _ _ _ _ _ _ Hn W Hd E j Hj).
    rewrite (sumR_ext n _ (fun i => Rpower rc (IZR dir * q) * kern n mu dlnr q kr dir (INR (n - 1 - j) - INR i))).
    2:{ intros i Hi. rewrite HA by exact Hi. now rewrite pre_power. }
    rewrite sumR_scal, <- Rmult_assoc, post_power by assumption. f_equal. unfold kernel_of. now apply kap_const.
  Qed.
End Gamma.
