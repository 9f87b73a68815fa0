(** Collapse thresholds, concentration amplitude, collapse redshifts, cold ratio, variance. *)
From Coquelicot Require Import Coquelicot.
From Verif Require Import Base Quad QuadFacts HmiModel HmiSpec HmiFacts HmiFacts2.
Open Scope R_scope.

(** *** Spherical collapse *)
Lemma scale_range z : 0 <= z <= 9999 -> g_a_init <= scale_factor z <= 1.
Proof.
  intros Hz. unfold g_a_init, scale_factor. split.
  - apply Rmult_le_reg_r with (1 + z); [lra|]. replace (1 / (1 + z) * (1 + z)) with 1 by (field; lra). lra.
  - apply Rmult_le_reg_r with (1 + z); [lra|]. replace (1 / (1 + z) * (1 + z)) with 1 by (field; lra). lra.
Qed.

Lemma log10_1 : log10 1 = 0.
Proof. unfold log10. rewrite ln_1. unfold Rdiv. ring. Qed.

Lemma eds_collapse c d v z : dark_energy_law c -> flat_universe c -> solves_growth c d v ->
  co_Om0 c + co_Onu0 c = 1 -> co_Om c z + co_Onu c z = 1 -> 0 <= z <= 9999 ->
  let a := scale_factor z in
  Dv_Mead c (d a) (accumulated_growth d a) z = 18 * PI ^ 2 * (1 + 763/1000 * mead_fnu c) /\
  dc_Mead c (d a) (accumulated_growth d a) z
    = 10001/10000 * (3 / 20 * fpow (12 * PI) (2 / 3)) * (1 - 41/1000 * mead_fnu c).
Proof.
  intros HD HF HS E1 E2 Hz a.
  assert (Ha : g_a_init <= a <= 1) by (apply scale_range, Hz).
  assert (Ed : d a = a) by (exact (eds_growth c HD HF d v HS E1 a Ha)).
  assert (EG : accumulated_growth d a = a) by (exact (eds_accumulated c HD HF d v HS E1 a Ha)).
  assert (P : 0 < a) by (pose proof a_init_pos; lra).
  unfold Dv_Mead, dc_Mead, mead_Om. fold a. rewrite Ed, EG, E2, log10_1.
  replace (a / a) with 1 by (field; lra). unfold f_Mead, dc_EdS. cbn [pow].
  split; field.
Qed.

Lemma neutrino_fractions c : 0 < co_Om0 c -> 0 <= co_Onu0 c ->
  let f := co_Onu0 c / co_Om0 c in
  mead_fnu c = f / (1 + f) /\ 0 <= mead_fnu c < 1 /\ mead_fnu c <= f /\
  (0 < co_Onu0 c -> mead_fnu c < f).
Proof.
  intros H1 H2 f. unfold mead_fnu.
  assert (Ef : co_Onu0 c / (co_Om0 c + co_Onu0 c) = f / (1 + f)) by (unfold f; field; lra).
  assert (Hf : 0 <= f) by (unfold f, Rdiv; apply Rmult_le_pos; [lra|apply Rlt_le, Rinv_0_lt_compat; lra]).
  rewrite Ef. split; [reflexivity|].
  assert (Q : f / (1 + f) = f * / (1 + f)) by reflexivity.
  assert (I : 0 < / (1 + f)) by (apply Rinv_0_lt_compat; lra).
  assert (E : f / (1 + f) * (1 + f) = f) by (field; lra).
  assert (N : 0 <= f / (1 + f)) by (rewrite Q; apply Rmult_le_pos; lra).
  split; [split|split].
  - exact N.
  - apply Rmult_lt_reg_r with (1 + f); lra.
  - assert (0 <= f / (1 + f) * f) by (apply Rmult_le_pos; lra). lra.
  - intros Hp. assert (0 < f) by (unfold f; apply Rdiv_lt_0_compat; lra).
    assert (0 < f / (1 + f)) by (apply Rdiv_lt_0_compat; lra).
    assert (0 < f / (1 + f) * f) by (apply Rmult_lt_0_compat; lra). lra.
Qed.

(** *** Concentration amplitude *)
Lemma pow10_pos x : 0 < pow10 x. Proof. apply exp_pos. Qed.
Lemma ln_ten_pos : 0 < ln ten.
Proof. unfold ten. rewrite <- ln_1. apply ln_increasing; lra. Qed.
Lemma pow10_lt x y : x < y -> pow10 x < pow10 y.
Proof. intros. unfold pow10, Rpower. apply exp_increasing, Rmult_lt_compat_r; [apply ln_ten_pos|assumption]. Qed.
Lemma pow10_le x y : x <= y -> pow10 x <= pow10 y.
Proof. intros [L|E]; [left; apply pow10_lt, L|subst; lra]. Qed.
Lemma pow10_0 : pow10 0 = 1.
Proof. unfold pow10, Rpower. rewrite Rmult_0_l. apply exp_0. Qed.

Lemma K_plain H z : is_mead (hi_ingr H) = false -> K H z = 0.
Proof. unfold K. destruct (hi_ingr H); cbn; intros; try discriminate; reflexivity. Qed.
Lemma K_mead2020 H z : hi_ingr H = Mead2020 -> K H z = 5196/1000.
Proof. unfold K. intros ->. ring. Qed.

Lemma K_fb_eq H z : hi_ingr H = Mead2020Fb ->
  K H z = 5196/4000 * ((344/100 - 496/1000 * (hi_log10T H - 78/10))
    * pow10 (z * (- (671/10000) - 371/10000 * (hi_log10T H - 78/10)))).
Proof. unfold K. intros ->. field. Qed.

(** log10 T_AGN between 7.8 - 671/371 and 7.8 + 3440/496 *)
Lemma K_fb_z H z z' : hi_ingr H = Mead2020Fb ->
  78/10 - 671/371 < hi_log10T H < 78/10 + 3440/496 -> z < z' -> 0 < K H z' < K H z.
Proof.
  intros Hi HT Hz. rewrite !(K_fb_eq H _ Hi). set (t := hi_log10T H - 78/10).
  assert (Ht : - (671/371) < t < 3440/496) by (unfold t; lra).
  assert (A : 0 < 344/100 - 496/1000 * t) by lra.
  assert (B : - (671/10000) - 371/10000 * t < 0) by lra.
  set (b := - (671/10000) - 371/10000 * t) in *.
  assert (L : pow10 (z' * b) < pow10 (z * b)).
  { apply pow10_lt. apply Rmult_lt_gt_compat_neg_l with (r := b) in Hz; [|exact B]. lra. }
  pose proof (pow10_pos (z' * b)).
  set (A' := 344/100 - 496/1000 * t) in *. split.
  - apply Rmult_lt_0_compat; [lra|]. apply Rmult_lt_0_compat; lra.
  - apply Rmult_lt_compat_l; [lra|]. apply Rmult_lt_compat_l; lra.
Qed.

Lemma K_fb_T H1 H2 z : hi_ingr H1 = Mead2020Fb -> hi_ingr H2 = Mead2020Fb -> 0 <= z ->
  hi_log10T H1 < hi_log10T H2 -> hi_log10T H2 < 78/10 + 3440/496 -> K H2 z < K H1 z.
Proof.
  intros I1 I2 Hz HT HM. rewrite (K_fb_eq H1 z I1), (K_fb_eq H2 z I2).
  set (t1 := hi_log10T H1 - 78/10). set (t2 := hi_log10T H2 - 78/10).
  assert (T : t1 < t2 /\ t2 < 3440/496) by (unfold t1, t2; lra). destruct T as [T1 T2].
  set (b1 := - (671/10000) - 371/10000 * t1). set (b2 := - (671/10000) - 371/10000 * t2).
  assert (L : pow10 (z * b2) <= pow10 (z * b1)).
  { apply pow10_le, Rmult_le_compat_l; [exact Hz|unfold b1, b2; lra]. }
  pose proof (pow10_pos (z * b2)). pose proof (pow10_pos (z * b1)).
  apply Rmult_lt_compat_l; [lra|].
  apply Rlt_le_trans with ((344/100 - 496/1000 * t1) * pow10 (z * b2)).
  - apply Rmult_lt_compat_r; lra.
  - apply Rmult_le_compat_l; lra.
Qed.

Lemma K_fb_le H1 H2 z : hi_ingr H1 = Mead2020Fb -> hi_ingr H2 = Mead2020 -> 0 <= z ->
  78/10 <= hi_log10T H1 < 78/10 + 3440/496 -> K H1 z <= 86/100 * K H2 z.
Proof.
  intros I1 I2 Hz HT. rewrite (K_fb_eq H1 z I1), (K_mead2020 H2 z I2).
  set (t := hi_log10T H1 - 78/10). assert (Ht : 0 <= t < 3440/496) by (unfold t; lra).
  assert (L : pow10 (z * (- (671/10000) - 371/10000 * t)) <= 1).
  { rewrite <- pow10_0. apply pow10_le. rewrite <- (Rmult_0_r z). apply Rmult_le_compat_l; lra. }
  set (p := pow10 _) in *. assert (0 < p) by apply pow10_pos.
  assert ((344/100 - 496/1000 * t) * p <= 344/100 * 1); [|lra].
  apply Rmult_le_compat; lra.
Qed.

(** *** Collapse redshifts *)
Section Collapse.
  Variable g : R -> R.
  Variable sigma : R -> R.
  Variable root : (R -> R) -> option R.
  Variable dc z : R.
  Hypothesis HG : growing g.
  Hypothesis HR : root_law root g.
  Hypothesis Hdc : 0 < dc.
  Hypothesis Hz : 0 <= z <= 999.
  Let a := scale_factor z.

  Lemma a_range : 1/1000 <= a <= 1.
  Proof.
    unfold a, scale_factor. split.
    - apply Rmult_le_reg_r with (1 + z); [lra|]. replace (1 / (1 + z) * (1 + z)) with 1 by (field; lra). lra.
    - apply Rmult_le_reg_r with (1 + z); [lra|]. replace (1 / (1 + z) * (1 + z)) with 1 by (field; lra). lra.
  Qed.
  Lemma a_back : -1 + 1 / a = z.
  Proof. unfold a, scale_factor. field. lra. Qed.
  Lemma g_le x y : 1/1000 <= x -> x <= y -> y <= 1 -> g x <= g y.
  Proof. intros ? [L|E] ?; [left; apply HG; assumption|subst; lra]. Qed.
  Lemma g_inv x y : 1/1000 <= x <= 1 -> 1/1000 <= y <= 1 -> g x < g y -> x < y.
  Proof.
    intros Hx Hy L. destruct (Rlt_dec x y) as [|N]; [assumption|exfalso].
    pose proof (g_le y x ltac:(lra) ltac:(lra) ltac:(lra)). lra.
  Qed.
  Lemma ga_pos : 0 < g a.
  Proof. pose proof a_range. pose proof (g_le (1/1000) a ltac:(lra) ltac:(lra) ltac:(lra)). destruct HG. lra. Qed.

  Let fac M := g a * dc / sigma (1/100 * M).

  Lemma fac_pos M : 0 < sigma (1/100 * M) -> 0 < fac M.
  Proof. intros. unfold fac. apply Rdiv_lt_0_compat; [|assumption]. apply Rmult_lt_0_compat; [apply ga_pos|exact Hdc]. Qed.

  Lemma fac_ge M : 0 < sigma (1/100 * M) -> (g a <= fac M <-> sigma (1/100 * M) <= dc).
  Proof.
    intros HS. pose proof ga_pos. unfold fac. set (s := sigma _) in *. split; intros L.
    - apply Rmult_le_reg_l with (g a); [assumption|].
      apply Rmult_le_compat_r with (r := s) in L; [|lra].
      replace (g a * dc / s * s) with (g a * dc) in L by (field; lra). exact L.
    - apply Rmult_le_reg_r with s; [assumption|].
      replace (g a * dc / s * s) with (g a * dc) by (field; lra). apply Rmult_le_compat_l; lra.
  Qed.

  (** The scale factor of formation. *)
  Lemma collapse_cases M zf : 0 < sigma (1/100 * M) -> collapse_redshift g sigma root dc z M = Ok zf ->
    (sigma (1/100 * M) <= dc /\ zf = z) \/
    (dc < sigma (1/100 * M) /\ z < zf /\ 1/1000 <= scale_factor zf < a /\
     g (scale_factor zf) * sigma (1/100 * M) = g a * dc).
  Proof.
    intros HS. unfold collapse_redshift. fold a. fold (fac M).
    destruct (Rle_dec (g a) (fac M)) as [L|N].
    - intros E. injection E as <-. left. split; [apply fac_ge; assumption|apply a_back].
    - destruct (root _) as [r|] eqn:ER; [|discriminate]. intros E. injection E as <-. right.
      destruct (HR (fac M)) as (R1 & _). destruct (R1 r ER) as [Hr Er].
      assert (La : r < a). { apply g_inv; [exact Hr|exact a_range|]. rewrite Er. lra. }
      assert (Es : scale_factor (-1 + 1 / r) = r) by (unfold scale_factor; field; lra).
      rewrite Es. pose proof a_range. split; [|split; [|split; [lra|]]].
      + apply Rnot_le_lt. intros Q. apply N, fac_ge; assumption.
      + rewrite <- a_back. apply Rplus_lt_compat_l. unfold Rdiv. rewrite !Rmult_1_l.
        apply Rinv_lt_contravar; [|exact La]. apply Rmult_lt_0_compat; lra.
      + rewrite Er. unfold fac. field. lra.
  Qed.

  Lemma collapse_monotone M1 M2 z1 z2 : 0 < sigma (1/100 * M2) -> sigma (1/100 * M2) <= sigma (1/100 * M1) ->
    collapse_redshift g sigma root dc z M1 = Ok z1 -> collapse_redshift g sigma root dc z M2 = Ok z2 ->
    z2 <= z1.
  Proof.
    intros P2 Hs E1 E2. assert (P1 : 0 < sigma (1/100 * M1)) by lra.
    destruct (collapse_cases M1 z1 P1 E1) as [[A1 B1]|(A1 & B1 & C1 & D1)];
    destruct (collapse_cases M2 z2 P2 E2) as [[A2 B2]|(A2 & B2 & C2 & D2)]; try lra.
    assert (L : g (scale_factor z1) <= g (scale_factor z2)).
    { apply Rmult_le_reg_r with (sigma (1/100 * M2)); [exact P2|]. rewrite D2, <- D1.
      apply Rmult_le_compat_l; [|exact Hs].
      apply Rlt_le, Rlt_le_trans with (g (1/1000)); [apply HG|]. apply g_le; [lra|lra|]. pose proof a_range. lra. }
    apply Rnot_lt_le. intros Q.
    assert (scale_factor z2 < scale_factor z1).
    { unfold scale_factor, Rdiv. rewrite !Rmult_1_l. apply Rinv_lt_contravar; [|lra].
      apply Rmult_lt_0_compat; lra. }
    pose proof a_range.
    assert (g (scale_factor z2) < g (scale_factor z1)) by (apply HG; lra). lra.
  Qed.

  Lemma collapse_fails M : 0 < sigma (1/100 * M) ->
    (exists e, collapse_redshift g sigma root dc z M = Err e) <->
    g a * dc < g (1/1000) * sigma (1/100 * M).
  Proof.
    intros HS. assert (Q : fac M < g (1/1000) <-> g a * dc < g (1/1000) * sigma (1/100 * M)).
    { unfold fac. set (s := sigma _) in *. split; intros L.
      - apply Rmult_lt_compat_r with (r := s) in L; [|exact HS].
        replace (g a * dc / s * s) with (g a * dc) in L by (field; lra). exact L.
      - apply Rmult_lt_reg_r with s; [exact HS|].
        replace (g a * dc / s * s) with (g a * dc) by (field; lra). exact L. }
    rewrite <- Q. unfold collapse_redshift. fold a. fold (fac M).
    pose proof a_range. pose proof (g_le (1/1000) a ltac:(lra) ltac:(lra) ltac:(lra)).
    pose proof (g_le a 1 ltac:(lra) ltac:(lra) ltac:(lra)).
    destruct (HR (fac M)) as (_ & R2 & R3).
    destruct (Rle_dec (g a) (fac M)) as [L|N].
    - split; [intros [e E]; discriminate|lra].
    - destruct (root _) as [r|] eqn:ER.
      + split; [intros [e E]; discriminate|]. intros L. specialize (R3 L). congruence.
      + split; [|intros _; eexists; reflexivity]. intros _.
        apply Rnot_le_lt. intros L. apply R2; [lra|reflexivity].
  Qed.
End Collapse.
