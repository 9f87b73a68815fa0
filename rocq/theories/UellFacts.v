(** The alignment transform: both methods compute the same moment; bounds; the FFTLog grid. *)
From Coq Require Import FunctionalExtensionality.
From Coquelicot Require Import Coquelicot.
From Verif Require Import Base Spec Quad Interp BaseFacts QuadFacts InterpFacts FftModel FftFacts5 IaModel IaFacts IaFacts2 IaFacts3
  UellModel UellSpec.
Open Scope R_scope.

Lemma sqrt_split x : 0 < x -> sqrt (x * PI / 2) = sqrt x * sqrt (PI / 2).
Proof.
  intros Hx. pose proof PI_RGT_0. replace (x * PI / 2) with (x * (PI / 2)) by field.
  apply sqrt_mult; lra.
Qed.

Lemma spherical_split J k r : 0 < k -> 0 < r -> spherical J (k * r) = sqrt (PI / 2) / (sqrt k * sqrt r) * J (k * r).
Proof.
  intros Hk Hr. pose proof PI_RGT_0. unfold spherical. f_equal.
  replace (PI / (2 * (k * r))) with (PI / 2 * / (k * r)) by (field; lra).
  assert (Hkr : 0 < k * r) by (apply Rmult_lt_0_compat; assumption).
  rewrite sqrt_mult by (try lra; left; apply Rinv_0_lt_compat; exact Hkr).
  rewrite sqrt_inv. rewrite sqrt_mult by lra. reflexivity.
Qed.

Lemma pow32 r : 0 < r -> fpow r (3 / 2) = r * sqrt r.
Proof.
  intros Hr. rewrite fpow_pos by exact Hr. replace (3 / 2) with (1 + / 2) by lra.
  rewrite Rpower_plus, Rpower_1, Rpower_sqrt by exact Hr. reflexivity.
Qed.

Lemma hankel_moment ht ell J X rs c rvir a b t k v : hankel_law ht (INR ell + / 2) J X -> 0 < X -> 0 < k ->
  bessel_moment J rs rvir a b t X k v -> uell_hankel ht ell rs c rvir a b t k = v / mnfw rs c.
Proof.
  intros HT HX Hk HI. unfold uell_hankel. pose proof (sqrt_lt_R0 k Hk) as Sk.
  rewrite (HT _ k (sqrt k * v) Hk).
  { unfold Rdiv. rewrite Rinv_mult. rewrite <- Rmult_assoc. replace (sqrt k * v * / sqrt k) with v by (field; lra). reflexivity. }
  eapply is_RInt_ext; [|apply (is_RInt_scal (V := R_NormedModule)); exact HI].
  intros r Hr. rewrite Rmin_left, Rmax_right in Hr by lra.
  unfold scal; simpl; unfold mult; simpl. rewrite spherical_split by lra. unfold hankel_input.
  rewrite sqrt_split by lra. pose proof (sqrt_lt_R0 r ltac:(lra)) as Sr.
  match goal with |- ?a = ?b => change (@eq R a b) end.
  replace (r * (r * 1)) with (r * (sqrt r * sqrt r)) by (rewrite sqrt_sqrt by lra; ring).
  field. split; lra.
Qed.

(** ** The FFTLog grid *)
Lemma r_pos i : 0 < uell_r i.
Proof. apply pow10_pos. Qed.

Lemma r_value i : (i < uell_n)%nat -> uell_r i = exp ((16 / 511 * INR i - 8) * ln 10).
Proof.
  intros Hi. unfold uell_r, logspace. rewrite linspace_eq by (try exact Hi; unfold uell_n; lia).
  replace (INR (uell_n - 1)) with 511 by (unfold uell_n; rewrite INR_IZR_INZ; reflexivity).
  unfold pow10, Rpower, ten. do 2 f_equal. field.
Qed.

Lemma dlnr_value : uell_dlnr = 16 / 511 * ln 10.
Proof.
  unfold uell_dlnr. rewrite !r_value by (unfold uell_n; lia).
  unfold Rdiv. rewrite <- exp_Ropp, <- exp_plus, ln_exp. simpl. field.
Qed.

Lemma ln10_pos : 0 < ln 10.
Proof. exact ln_ten_pos. Qed.

Lemma offset_near lgi dln mu initial bias : 0 < dln -> Rabs (fhtoffset lgi dln mu initial bias - initial) <= dln / 2.
Proof.
  intros Hd. unfold fhtoffset. match goal with |- context [np_round ?x] => set (arg := x) end.
  replace (initial + (arg - IZR (np_round arg)) * dln - initial) with ((arg - IZR (np_round arg)) * dln) by ring.
  rewrite Rabs_mult, (Rabs_pos_eq dln) by lra. pose proof (np_round_half arg). nra.
Qed.

Lemma k_value lgi idx ell j : (j < uell_n)%nat ->
  uell_k lgi idx ell j = exp (uell_offset lgi idx ell + (16 / 511 * INR j - 8) * ln 10).
Proof.
  intros Hj. unfold uell_k. rewrite r_value by (unfold uell_n in *; lia).
  unfold Rdiv at 1. rewrite <- exp_Ropp, <- exp_plus. f_equal.
  rewrite minus_INR by (unfold uell_n in *; lia).
  replace (INR (uell_n - 1)) with 511 by (unfold uell_n; rewrite INR_IZR_INZ; reflexivity). field.
Qed.

Lemma k_pos lgi idx ell j : 0 < uell_k lgi idx ell j.
Proof. unfold uell_k. apply Rdiv_lt_0_compat; [apply exp_pos|apply r_pos]. Qed.

Lemma k_incr lgi idx ell : increasing uell_n (uell_k lgi idx ell).
Proof.
  intros j Hj. rewrite !k_value by lia. apply exp_increasing. rewrite S_INR. pose proof ln10_pos. nra.
Qed.

Lemma k_reciprocal lgi idx ell j : (j < uell_n)%nat ->
  uell_k lgi idx ell j * uell_r (uell_n - 1 - j) = exp (uell_offset lgi idx ell).
Proof. intros Hj. unfold uell_k. field. apply Rgt_not_eq, r_pos. Qed.

Lemma k_step lgi idx ell j : (S j < uell_n)%nat -> ln (uell_k lgi idx ell (S j) / uell_k lgi idx ell j) = uell_dlnr.
Proof.
  intros Hj. rewrite !k_value by lia. rewrite dlnr_value.
  unfold Rdiv at 1. rewrite <- exp_Ropp, <- exp_plus, ln_exp. rewrite S_INR. field.
Qed.

Lemma offset_bounds lgi idx ell :
  (- 2 - 8 / 511) * ln 10 <= uell_offset lgi idx ell <= (- 2 + 8 / 511) * ln 10.
Proof.
  pose proof ln10_pos as H10. assert (Hd : 0 < uell_dlnr) by (rewrite dlnr_value; nra).
  pose proof (offset_near lgi uell_dlnr (uell_mu ell) (- 2 * ln 10) (uell_bias idx) Hd) as N.
  fold (uell_offset lgi idx ell) in N. rewrite dlnr_value in N.
  pose proof (Rle_abs (uell_offset lgi idx ell - - 2 * ln 10)).
  pose proof (Rle_abs (- (uell_offset lgi idx ell - - 2 * ln 10))) as N2. rewrite Rabs_Ropp in N2. lra.
Qed.

Lemma k_vec_inside lgi idx ell fftlog nk i : (2 <= ia_nk fftlog nk)%nat -> (i < ia_nk fftlog nk)%nat ->
  uell_k lgi idx ell 0 < ia_k_vec fftlog nk i < uell_k lgi idx ell (uell_n - 1).
Proof.
  intros Hn Hi. pose proof ln10_pos as H10. pose proof (offset_bounds lgi idx ell) as [O1 O2].
  assert (B : exp (- 3 * ln 10) <= ia_k_vec fftlog nk i <= exp (3 * ln 10)).
  { unfold ia_k_vec, logspace. rewrite linspace_eq by assumption.
    assert (E1 : log10 1000 = 3).
    { replace 1000 with (pow10 3); [apply log10_pow10|]. unfold pow10, ten. replace 3 with (INR 3) by (simpl; lra).
      rewrite Rpower_pow by lra. simpl. lra. }
    assert (E2 : log10 (1 / 1000) = - 3).
    { rewrite log10_div by lra. rewrite log10_1, E1. ring. }
    rewrite E1, E2. unfold pow10, Rpower, ten.
    assert (Hp : 0 < INR (ia_nk fftlog nk - 1)) by (apply INR_pred_pos, Hn).
    assert (Hq : 0 <= INR i * ((3 - - 3) / INR (ia_nk fftlog nk - 1)) <= 6).
    { pose proof (pos_INR i). assert (INR i <= INR (ia_nk fftlog nk - 1)) by (apply le_INR; lia).
      replace (INR i * ((3 - - 3) / INR (ia_nk fftlog nk - 1))) with (6 * (INR i / INR (ia_nk fftlog nk - 1))) by (field; lra).
      assert (0 <= INR i / INR (ia_nk fftlog nk - 1) <= 1); [|lra]. split.
      - apply Rmult_le_pos; [assumption|left; apply Rinv_0_lt_compat, Hp].
      - apply Rmult_le_reg_r with (INR (ia_nk fftlog nk - 1)); [exact Hp|].
        unfold Rdiv. rewrite Rmult_assoc, Rinv_l by lra. lra. }
    assert (mono : forall u v, u <= v -> exp u <= exp v).
    { intros u v [Huv| ->]; [left; apply exp_increasing, Huv|right; reflexivity]. }
    split; apply mono; nra. }
  rewrite !k_value by (unfold uell_n; lia).
  replace (INR (uell_n - 1)) with 511 by (unfold uell_n; rewrite INR_IZR_INZ; reflexivity). simpl (INR 0).
  split.
  - apply Rlt_le_trans with (exp (- 3 * ln 10)); [|lra]. apply exp_increasing. nra.
  - apply Rle_lt_trans with (exp (3 * ln 10)); [lra|]. apply exp_increasing. nra.
Qed.

(** ** The FFTLog method *)
Lemma fft_integrand J k r rs rvir a b t : 0 < k -> 0 < r ->
  fft_input rs rvir a b t r * J (k * r) * k
  = fpow k (3 / 2) * (gamma_r_nfw_profile r rs rvir a b rcore_default t * r ^ 2 * spherical J (k * r)).
Proof.
  intros Hk Hr. unfold fft_input. rewrite spherical_split by assumption. rewrite !pow32 by assumption.
  pose proof (sqrt_lt_R0 r Hr). pose proof (sqrt_lt_R0 k Hk).
  replace (r ^ 2) with (r * (sqrt r * sqrt r)) by (rewrite sqrt_sqrt by lra; ring).
  field. split; lra.
Qed.

Lemma table_moment fht lgi idx ell J X rs c rvir a b t j v : 0 < X ->
  fht_exact fht lgi idx ell J rs rvir a b t X j ->
  bessel_moment J rs rvir a b t X (uell_k lgi idx ell j) v ->
  uell_table lgi fht idx ell rs c rvir a b t j = v / mnfw rs c.
Proof.
  intros HX HF HI. unfold uell_table. pose proof (k_pos lgi idx ell j) as Hk. set (k := uell_k lgi idx ell j) in *.
  assert (Hp : 0 < fpow k (3 / 2)) by (apply fpow_gt0, Hk).
  rewrite (HF (fpow k (3 / 2) * v)).
  { unfold Rdiv. rewrite Rinv_mult. rewrite <- Rmult_assoc.
    replace (fpow k (3 * / 2) * v * / fpow k (3 * / 2)) with v; [reflexivity|].
    change (3 * / 2) with (3 / 2). field. lra. }
  fold k. eapply is_RInt_ext; [|apply (is_RInt_scal (V := R_NormedModule)); exact HI].
  intros r Hr. rewrite Rmin_left, Rmax_right in Hr by lra.
  unfold scal; simpl; unfold mult; simpl. symmetry. apply (fft_integrand J k r rs rvir a b t); lra.
Qed.

Lemma fftlog_at_node fht lgi idx ell rs c rvir a b t j : (j < uell_n)%nat ->
  uell_fftlog lgi fht idx ell rs c rvir a b t (uell_k lgi idx ell j) = uell_table lgi fht idx ell rs c rvir a b t j.
Proof.
  intros Hj. unfold uell_fftlog. simpl. apply interp_node; [unfold uell_n; lia|apply k_incr|exact Hj].
Qed.

Lemma fftlog_moment fht lgi idx ell J X rs c rvir a b t j v : 0 < X -> (j < uell_n)%nat ->
  fht_exact fht lgi idx ell J rs rvir a b t X j ->
  bessel_moment J rs rvir a b t X (uell_k lgi idx ell j) v ->
  uell_fftlog lgi fht idx ell rs c rvir a b t (uell_k lgi idx ell j) = v / mnfw rs c.
Proof. intros HX Hj HF HI. rewrite fftlog_at_node by exact Hj. eapply table_moment; eassumption. Qed.

Lemma fftlog_between fht lgi idx ell J X rs c rvir a b t j v w q : 0 < X -> (S j < uell_n)%nat ->
  fht_exact fht lgi idx ell J rs rvir a b t X j -> fht_exact fht lgi idx ell J rs rvir a b t X (S j) ->
  bessel_moment J rs rvir a b t X (uell_k lgi idx ell j) v ->
  bessel_moment J rs rvir a b t X (uell_k lgi idx ell (S j)) w ->
  uell_k lgi idx ell j <= q <= uell_k lgi idx ell (S j) ->
  between (v / mnfw rs c) (w / mnfw rs c) (uell_fftlog lgi fht idx ell rs c rvir a b t q).
Proof.
  intros HX Hj HF HF' HI HI' [H1 H2].
  rewrite <- (table_moment fht lgi idx ell J X rs c rvir a b t j v HX HF HI).
  rewrite <- (table_moment fht lgi idx ell J X rs c rvir a b t (S j) w HX HF' HI').
  unfold uell_fftlog. simpl. apply (interp_hull uell_n _ _ q j); [unfold uell_n; lia|apply k_incr|exact Hj|exact H1|exact H2].
Qed.

(** ** Bounds *)
Lemma truncated_moment J rs rvir a b X k v : 0 < rvir -> rvir <= X ->
  bessel_moment J rs rvir a b true rvir k v -> bessel_moment J rs rvir a b true X k v.
Proof.
  intros Hr HX HI. unfold bessel_moment in *.
  replace v with (plus v 0) by (unfold plus; simpl; ring).
  apply (is_RInt_Chasles (V := R_NormedModule) _ 0 rvir X); [exact HI|].
  evar_last.
  - apply (is_RInt_ext (V := R_NormedModule) (fun _ => 0)).
    + intros r Hx. rewrite Rmin_left, Rmax_right in Hx by exact HX.
      rewrite profile_truncated by lra. match goal with |- ?a = ?b => change (@eq R a b) end. ring.
    + apply (is_RInt_const (V := R_NormedModule)).
  - unfold scal; simpl; unfold mult; simpl. ring.
Qed.

Lemma nfw_int rs c : 0 < rs -> 0 < c ->
  is_RInt (fun r => r ^ 2 * (1 / (r / rs * (1 + r / rs) ^ 2))) 0 (c * rs) (mnfw rs c / (4 * PI)).
Proof.
  intros H1 H2. pose proof PI_RGT_0 as HP.
  pose proof (is_RInt_scal (V := R_NormedModule) _ 0 (c * rs) (/ (4 * PI)) _ (mnfw_mass rs c H1 H2)) as I.
  unfold scal in I; simpl in I; unfold mult in I; simpl in I.
  evar_last.
  - eapply is_RInt_ext; [|exact I]. intros r _. match goal with |- ?a = ?b => change (@eq R a b) end.
    set (w := 1 / (r / rs * ((1 + r / rs) * ((1 + r / rs) * 1)))). simpl. fold w. field. lra.
  - field. lra.
Qed.

Lemma moment_bound J rs c a b k v : 0 < rs -> 0 < c -> 0 <= a -> 0 < k ->
  (forall x, 0 < x -> Rabs (spherical J x) <= 1) ->
  bessel_moment J rs (c * rs) a b true (c * rs) k v ->
  Rabs (v / mnfw rs c) <= 3 / 10 / (4 * PI).
Proof.
  intros Hs Hc Ha Hk HJ HI. pose proof PI_RGT_0 as HP. pose proof (mnfw_pos rs c Hs Hc) as Hm.
  assert (Hv : 0 < c * rs) by (apply Rmult_lt_0_compat; assumption).
  pose proof (is_RInt_scal (V := R_NormedModule) _ 0 (c * rs) (3 / 10) _ (nfw_int rs c Hs Hc)) as Up.
  pose proof (is_RInt_scal (V := R_NormedModule) _ 0 (c * rs) (- (3 / 10)) _ (nfw_int rs c Hs Hc)) as Lo.
  unfold scal in Up, Lo; simpl in Up, Lo; unfold mult in Up, Lo; simpl in Up, Lo.
  assert (B : forall r, 0 < r < c * rs ->
    Rabs (gamma_r_nfw_profile r rs (c * rs) a b rcore_default true * r ^ 2 * spherical J (k * r))
    <= 3 / 10 * (r ^ 2 * (1 / (r / rs * (1 + r / rs) ^ 2)))).
  { intros r [Hr _]. destruct (profile_bounds r rs (c * rs) a b rcore_default true Hr Hs Ha) as [P1 P2].
    assert (0 <= r ^ 2) by (apply pow_le; lra).
    rewrite Rabs_mult, (Rabs_pos_eq (_ * r ^ 2)) by (apply Rmult_le_pos; assumption).
    pose proof (HJ (k * r) ltac:(apply Rmult_lt_0_compat; assumption)) as HJr.
    apply Rle_trans with (gamma_r_nfw_profile r rs (c * rs) a b rcore_default true * r ^ 2 * 1).
    - apply Rmult_le_compat_l; [apply Rmult_le_pos; assumption|exact HJr].
    - rewrite Rmult_1_r. rewrite (Rmult_comm (r ^ 2)), <- Rmult_assoc. apply Rmult_le_compat_r; assumption. }
  assert (V1 : v <= 3 / 10 * (mnfw rs c / (4 * PI))).
  { eapply is_RInt_le; [|exact HI|exact Up|]; [lra|]. intros r Hr. specialize (B r Hr).
    eapply Rle_trans; [apply Rle_abs|exact B]. }
  assert (V2 : - (3 / 10) * (mnfw rs c / (4 * PI)) <= v).
  { eapply is_RInt_le; [|exact Lo|exact HI|]; [lra|]. intros r Hr. specialize (B r Hr).
    match type of B with Rabs ?g <= _ => pose proof (Rle_abs (- g)) as A end. rewrite Rabs_Ropp in A.
    match goal with |- ?x <= ?y => change (x <= y) end. simpl in *. lra. }
  unfold Rdiv at 1. rewrite Rabs_mult, (Rabs_pos_eq (/ mnfw rs c)) by (left; apply Rinv_0_lt_compat, Hm).
  apply Rmult_le_reg_r with (mnfw rs c); [exact Hm|]. rewrite Rmult_assoc, Rinv_l, Rmult_1_r by lra.
  replace (3 / 10 / (4 * PI) * mnfw rs c) with (3 / 10 * (mnfw rs c / (4 * PI))) by (field; lra).
  apply Rabs_le. lra.
Qed.

Lemma gamma_flat r rvir a : 0 < rvir -> 0 <= r -> gamma_r r rvir a 0 rcore_default = Rmin a (3 / 10).
Proof.
  intros Hv Hr. unfold gamma_r, rcore_default. assert (0 < / rvir) by (apply Rinv_0_lt_compat, Hv).
  rewrite !fpow_0_r by (unfold Rdiv; apply Rmult_le_pos; lra). rewrite Rmult_1_r.
  destruct (Rlt_dec r (6 / 100)); reflexivity.
Qed.

(** Constant shear: the moment is the shear times a mass-weighted mean of the Bessel function. *)
Lemma flat_moment J rs c a k lo hi v : 0 < rs -> 0 < c -> 0 <= a -> 0 < k ->
  (forall x, 0 < x < k * (c * rs) -> lo <= spherical J x <= hi) ->
  bessel_moment J rs (c * rs) a 0 true (c * rs) k v ->
  Rmin a (3 / 10) / (4 * PI) * lo <= v / mnfw rs c <= Rmin a (3 / 10) / (4 * PI) * hi.
Proof.
  intros Hs Hc Ha Hk HJ HI. pose proof PI_RGT_0 as HP. pose proof (mnfw_pos rs c Hs Hc) as Hm.
  assert (Hv : 0 < c * rs) by (apply Rmult_lt_0_compat; assumption). set (g := Rmin a (3 / 10)).
  assert (Hg : 0 <= g) by (apply Rmin_glb; lra).
  pose proof (is_RInt_scal (V := R_NormedModule) _ 0 (c * rs) (g * hi) _ (nfw_int rs c Hs Hc)) as Up.
  pose proof (is_RInt_scal (V := R_NormedModule) _ 0 (c * rs) (g * lo) _ (nfw_int rs c Hs Hc)) as Lo.
  unfold scal in Up, Lo; simpl in Up, Lo; unfold mult in Up, Lo; simpl in Up, Lo.
  assert (E : forall r, 0 < r < c * rs ->
    gamma_r_nfw_profile r rs (c * rs) a 0 rcore_default true * r ^ 2 * spherical J (k * r)
    = g * spherical J (k * r) * (r ^ 2 * (1 / (r / rs * (1 + r / rs) ^ 2)))
    /\ 0 <= g * (r ^ 2 * (1 / (r / rs * (1 + r / rs) ^ 2))) /\ lo <= spherical J (k * r) <= hi).
  { intros r [H0 H1]. rewrite profile_same, profile by exact H1. rewrite gamma_flat by lra. fold g.
    split; [ring|]. split.
    - apply Rmult_le_pos; [exact Hg|]. apply Rmult_le_pos; [apply pow_le; lra|].
      unfold Rdiv. rewrite Rmult_1_l. left. apply Rinv_0_lt_compat.
      assert (0 < r * / rs) by (apply Rmult_lt_0_compat; [lra|apply Rinv_0_lt_compat, Hs]).
      apply Rmult_lt_0_compat; [assumption|apply pow_lt; lra].
    - apply HJ. split; [apply Rmult_lt_0_compat; lra|apply Rmult_lt_compat_l; lra]. }
  assert (V1 : v <= g * hi * (mnfw rs c / (4 * PI))).
  { eapply is_RInt_le; [|exact HI|exact Up|]; [lra|]. intros r Hr. destruct (E r Hr) as (E1 & E2 & E3).
    simpl in *. rewrite E1. nra. }
  assert (V2 : g * lo * (mnfw rs c / (4 * PI)) <= v).
  { eapply is_RInt_le; [|exact Lo|exact HI|]; [lra|]. intros r Hr. destruct (E r Hr) as (E1 & E2 & E3).
    simpl in *. rewrite E1. nra. }
  split; apply Rmult_le_reg_r with (mnfw rs c); try exact Hm; unfold Rdiv at 1 || idtac.
  - replace (v / mnfw rs c * mnfw rs c) with v by (field; lra).
    replace (g * / (4 * PI) * lo * mnfw rs c) with (g * lo * (mnfw rs c / (4 * PI))) by (field; lra). exact V2.
  - rewrite Rmult_assoc, Rinv_l, Rmult_1_r by lra.
    replace (g / (4 * PI) * hi * mnfw rs c) with (g * hi * (mnfw rs c / (4 * PI))) by (field; lra). exact V1.
Qed.

(** Below the cap the transform is proportional to the amplitude. *)
Lemma gamma_linear r rvir a b s :
  (let x := if Rlt_dec r rcore_default then rcore_default else r in
   a * fpow (x / rvir) b <= 3 / 10 /\ s * a * fpow (x / rvir) b <= 3 / 10) ->
  gamma_r r rvir (s * a) b rcore_default = s * gamma_r r rvir a b rcore_default.
Proof.
  unfold gamma_r. destruct (Rlt_dec r rcore_default); intros [H1 H2]; rewrite !Rmin_left by assumption; ring.
Qed.

Lemma moment_linear J rs rvir a b t X k v s : 0 < X ->
  (forall x, a * fpow (x / rvir) b <= 3 / 10 /\ s * a * fpow (x / rvir) b <= 3 / 10 \/ x < rcore_default) ->
  bessel_moment J rs rvir a b t X k v -> bessel_moment J rs rvir (s * a) b t X k (s * v).
Proof.
  intros HX Hcap HI. unfold bessel_moment in *.
  eapply is_RInt_ext; [|apply (is_RInt_scal (V := R_NormedModule) _ 0 X s v HI)].
  intros r Hr. rewrite Rmin_left, Rmax_right in Hr by lra. unfold scal; simpl; unfold mult; simpl.
  unfold gamma_r_nfw_profile. rewrite gamma_linear; [match goal with |- ?a = ?b => change (@eq R a b) end; ring|].
  cbv zeta. destruct (Rlt_dec r rcore_default).
  - destruct (Hcap rcore_default) as [Hc|Hc]; [exact Hc|lra].
  - destruct (Hcap r) as [Hc|Hc]; [exact Hc|contradiction].
Qed.

Lemma bias_strip idx ell L : nth_error (ell_values L) idx = Some ell ->
  0 < uell_mu ell + 1 + uell_bias idx /\ 0 < uell_mu ell + 1 - uell_bias idx /\ uell_bias idx < / 2.
Proof.
  intros H. destruct (multipoles L) as (_ & _ & _ & E). apply E in H. subst ell.
  unfold uell_mu, uell_bias. rewrite mult_INR. simpl (INR 2). pose proof (pos_INR idx). lra.
Qed.

Lemma amplitude_linear ht ell J X rs c rvir a b t k v s : 0 < X -> 0 < k -> 0 < rvir -> b <= 0 -> 0 <= a -> 0 <= s ->
  hankel_law ht (INR ell + / 2) J X -> bessel_moment J rs rvir a b t X k v ->
  a * fpow (rcore_default / rvir) b <= 3 / 10 -> s * a * fpow (rcore_default / rvir) b <= 3 / 10 ->
  uell_hankel ht ell rs c rvir (s * a) b t k = s * uell_hankel ht ell rs c rvir a b t k.
Proof.
  intros HX Hk Hv Hb Ha Hs HT HI C1 C2.
  assert (Hi : 0 < / rvir) by (apply Rinv_0_lt_compat, Hv).
  assert (HI2 : bessel_moment J rs rvir (s * a) b t X k (s * v)).
  { apply moment_linear; [exact HX| |exact HI]. intros x. destruct (Rlt_dec x rcore_default) as [L|L]; [right; exact L|left].
    assert (Hc : 0 < rcore_default) by (unfold rcore_default; lra).
    assert (M : fpow (x / rvir) b <= fpow (rcore_default / rvir) b).
    { assert (0 < rcore_default / rvir) by (unfold Rdiv; apply Rmult_lt_0_compat; assumption).
      assert (rcore_default / rvir <= x / rvir) by (unfold Rdiv; apply Rmult_le_compat_r; lra).
      rewrite !fpow_pos by lra. unfold Rpower.
      assert (ln (rcore_default / rvir) <= ln (x / rvir)) by (apply ln_le; lra).
      destruct (Rle_lt_or_eq_dec (b * ln (x / rvir)) (b * ln (rcore_default / rvir)) ltac:(nra)) as [Q|Q];
        [left; apply exp_increasing, Q|right; rewrite Q; reflexivity]. }
    assert (0 <= s * a) by (apply Rmult_le_pos; assumption).
    split; eapply Rle_trans; [apply Rmult_le_compat_l; [exact Ha|exact M]|exact C1|apply Rmult_le_compat_l; [assumption|exact M]|exact C2]. }
  rewrite (hankel_moment _ _ _ _ _ _ _ _ _ _ _ _ HT HX Hk HI), (hankel_moment _ _ _ _ _ _ _ _ _ _ _ _ HT HX Hk HI2).
  unfold Rdiv. ring.
Qed.

Lemma uell_bound ht ell J X rs c a b k v : 0 < rs -> 0 < c -> 0 <= a -> 0 < k -> c * rs <= X ->
  hankel_law ht (INR ell + / 2) J X -> (forall x, 0 < x -> Rabs (spherical J x) <= 1) ->
  bessel_moment J rs (c * rs) a b true (c * rs) k v ->
  Rabs (uell_hankel ht ell rs c (c * rs) a b true k) <= 3 / (40 * PI).
Proof.
  intros Hs Hc Ha Hk HX HT HJ HI. assert (Hv : 0 < c * rs) by (apply Rmult_lt_0_compat; assumption).
  rewrite (hankel_moment _ _ _ _ _ _ _ _ _ _ _ v HT); [|lra|exact Hk|apply truncated_moment; assumption].
  pose proof PI_RGT_0. replace (3 / (40 * PI)) with (3 / 10 / (4 * PI)) by (field; lra).
  apply (moment_bound J rs c a b k v); assumption.
Qed.

Lemma uell_flat ht ell J X rs c a k lo hi v : 0 < rs -> 0 < c -> 0 <= a -> 0 < k -> c * rs <= X ->
  hankel_law ht (INR ell + / 2) J X -> (forall x, 0 < x < k * (c * rs) -> lo <= spherical J x <= hi) ->
  bessel_moment J rs (c * rs) a 0 true (c * rs) k v ->
  Rmin a (3 / 10) / (4 * PI) * lo <= uell_hankel ht ell rs c (c * rs) a 0 true k <= Rmin a (3 / 10) / (4 * PI) * hi.
Proof.
  intros Hs Hc Ha Hk HX HT HJ HI. assert (Hv : 0 < c * rs) by (apply Rmult_lt_0_compat; assumption).
  rewrite (hankel_moment _ _ _ _ _ _ _ _ _ _ _ v HT); [|lra|exact Hk|apply truncated_moment; assumption].
  apply (flat_moment J rs c a k lo hi v); assumption.
Qed.

Lemma methods_agree ht fht lgi idx ell J X rs c rvir a b t j v : 0 < X -> (j < uell_n)%nat ->
  hankel_law ht (INR ell + / 2) J X -> fht_exact fht lgi idx ell J rs rvir a b t X j ->
  bessel_moment J rs rvir a b t X (uell_k lgi idx ell j) v ->
  uell_fftlog lgi fht idx ell rs c rvir a b t (uell_k lgi idx ell j)
  = uell_hankel ht ell rs c rvir a b t (uell_k lgi idx ell j).
Proof.
  intros HX Hj HT HF HI. rewrite (fftlog_moment _ _ _ _ _ _ _ _ _ _ _ _ _ _ HX Hj HF HI).
  symmetry. apply (hankel_moment _ _ _ _ _ _ _ _ _ _ _ _ HT HX (k_pos lgi idx ell j) HI).
Qed.

(** A concrete transform: the Bessel function whose spherical form is 1. *)
Definition unitJ (x : R) : R := sqrt (2 * x / PI).
Definition exact_ht (J : R -> R) (X : R) (nu : R) (f : R -> R) (k : R) : R := RInt (fun r => f r * J (k * r) * r) 0 X.

Lemma unit_spherical x : 0 < x -> spherical unitJ x = 1.
Proof.
  intros Hx. pose proof PI_RGT_0. unfold spherical, unitJ.
  assert (0 < PI / (2 * x)) by (apply Rdiv_lt_0_compat; lra).
  rewrite <- sqrt_mult_alt by lra. replace (PI / (2 * x) * (2 * x / PI)) with 1 by (field; lra). apply sqrt_1.
Qed.

Lemma exact_ht_law J X nu : hankel_law (exact_ht J X) nu J X.
Proof. intros f k v _ H. apply is_RInt_unique, H. Qed.

Lemma unit_moment rs c a k : 0 < rs -> 0 < c -> 0 <= a <= 3 / 10 -> 0 < k ->
  bessel_moment unitJ rs (c * rs) a 0 true (c * rs) k (a * (mnfw rs c / (4 * PI))).
Proof.
  intros Hs Hc Ha Hk. assert (Hv : 0 < c * rs) by (apply Rmult_lt_0_compat; assumption).
  unfold bessel_moment. eapply is_RInt_ext; [|apply (is_RInt_scal (V := R_NormedModule) _ 0 (c * rs) a _ (nfw_int rs c Hs Hc))].
  intros r Hr. rewrite Rmin_left, Rmax_right in Hr by lra. unfold scal; simpl; unfold mult; simpl.
  rewrite unit_spherical by (apply Rmult_lt_0_compat; lra).
  rewrite profile_same, profile by lra. rewrite gamma_flat, Rmin_left by lra.
  match goal with |- ?a = ?b => change (@eq R a b) end. simpl. ring.
Qed.
